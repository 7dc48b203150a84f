(** Proofs about the pool: layout invariant and refinement to a stack of byte strings. *)
From Verif Require Import Base U8Pool PoolSpec.

(** ** Slices *)
Lemma slice_spec l a b c :
  slice l a b = Some c <-> exists l1 l2, l = l1 ++ c ++ l2 /\ len l1 = a /\ b = a + len c.
Proof.
  unfold slice. split.
  - intros H. destruct (Nat.leb_spec a b); cbn [andb] in H; [|discriminate].
    destruct (Nat.leb_spec b (len l)); [|discriminate].
    injection H as <-.
    exists (firstn a l), (skipn (b - a) (skipn a l)).
    rewrite firstn_skipn, firstn_skipn. rewrite !firstn_length, skipn_length. repeat split; lia.
  - intros (l1 & l2 & -> & <- & ->).
    rewrite !app_length.
    destruct (Nat.leb_spec (len l1) (len l1 + len c)); [|lia].
    destruct (Nat.leb_spec (len l1 + len c) (len l1 + (len c + len l2))); [|lia].
    cbn [andb]. f_equal.
    rewrite skipn_app, skipn_all, Nat.sub_diag. cbn [skipn app].
    replace (len l1 + len c - len l1) with (len c) by lia.
    rewrite firstn_app, firstn_all, Nat.sub_diag. cbn [firstn]. apply app_nil_r.
Qed.

Lemma slice_len l a b c : slice l a b = Some c -> len c = b - a /\ a <= b /\ b <= len l.
Proof.
  intros H. apply slice_spec in H. destruct H as (l1 & l2 & -> & <- & ->).
  rewrite !app_length. lia.
Qed.

Lemma slice_some l a b : a <= b -> b <= len l -> exists c, slice l a b = Some c.
Proof.
  intros H1 H2. unfold slice.
  destruct (Nat.leb_spec a b); [|lia]. destruct (Nat.leb_spec b (len l)); [|lia]. cbn [andb]. eauto.
Qed.

Lemma len_write_at l a d : a + len d <= len l -> len (write_at l a d) = len l.
Proof. intros H. unfold write_at. rewrite !app_length, firstn_length, skipn_length. lia. Qed.

Lemma slice_write_below l a b c w d :
  slice l a b = Some c -> b <= w -> w + len d <= len l -> slice (write_at l w d) a b = Some c.
Proof.
  intros H Hb Hw. apply slice_spec in H. destruct H as (l1 & l2 & -> & <- & ->).
  apply slice_spec. unfold write_at.
  exists l1, (firstn (w - len l1 - len c) l2 ++ d ++ skipn (w + len d) (l1 ++ c ++ l2)).
  split; [|split; reflexivity].
  rewrite firstn_app, firstn_all2 by lia.
  rewrite firstn_app, (firstn_all2 c) by lia.
  rewrite <- !app_assoc. reflexivity.
Qed.

Lemma slice_write_same l w d : w + len d <= len l -> slice (write_at l w d) w (w + len d) = Some d.
Proof.
  intros H. apply slice_spec. unfold write_at.
  exists (firstn w l), (skipn (w + len d) l). rewrite firstn_length. repeat split; lia.
Qed.

Lemma slice_app l a b c x y :
  slice l a b = Some x -> slice l b c = Some y -> slice l a c = Some (x ++ y).
Proof.
  intros H1 H2. apply slice_spec in H1. destruct H1 as (l1 & l2 & -> & <- & ->).
  apply slice_spec in H2. destruct H2 as (m1 & m2 & H & Hl & ->).
  apply slice_spec. rewrite app_assoc in H.
  assert (m1 = l1 ++ x /\ y ++ m2 = l2) as [-> <-].
  { clear -H Hl. revert H Hl. rewrite <- app_length.
    generalize (l1 ++ x) as u. intros u H Hl. revert m1 H Hl.
    induction u as [|z u IH]; intros [|z' m1] H Hl; cbn in *; try lia; auto.
    injection H as -> H. destruct (IH m1 H) as [-> ->]; auto. }
  exists l1, m2. rewrite !app_length, <- !app_assoc. repeat split; lia.
Qed.

Lemma slice_split l a c x n :
  slice l a (a + len x) = Some x -> c = a + len x -> n <= len x ->
  slice l a (a + n) = Some (firstn n x) /\ slice l (a + n) c = Some (skipn n x).
Proof.
  intros H -> Hn. apply slice_spec in H. destruct H as (l1 & l2 & -> & <- & _).
  split; apply slice_spec.
  - exists l1, (skipn n x ++ l2). rewrite firstn_length.
    rewrite (app_assoc (firstn n x)), firstn_skipn. repeat split; lia.
  - exists (l1 ++ firstn n x), l2. rewrite app_length, firstn_length, skipn_length.
    rewrite <- app_assoc, (app_assoc (firstn n x)), firstn_skipn. repeat split; lia.
Qed.

(** ** Descriptors *)
Lemma div_mod_u16 (n : N) : (n mod 256 + 256 * (n / 256) = n)%N.
Proof. rewrite N.add_comm. symmetry. apply N.div_mod. lia. Qed.

Lemma desc_set_ok d i s l d' :
  desc_set d i s l = Ok d' ->
  (N.of_nat s <= 65535)%N /\ (N.of_nat l <= 65535)%N /\ i * 4 + 4 <= List.length d /\
  d' = write_at d (i * 4) [(N.of_nat s mod 256)%N; (N.of_nat s / 256)%N;
                           (N.of_nat l mod 256)%N; (N.of_nat l / 256)%N].
Proof.
  unfold desc_set, u16_max, SLICE_DESCRIPTOR_SIZE.
  destruct (N.ltb_spec 65535 (N.of_nat s)); [discriminate|].
  destruct (N.ltb_spec 65535 (N.of_nat l)); [discriminate|].
  destruct (Nat.ltb_spec (List.length d) (i * 4 + 4)); [discriminate|].
  intros H2. injection H2 as <-. auto.
Qed.

Lemma nth_write_at_in d o x k :
  o + List.length x <= List.length d -> k < List.length x ->
  nth (o + k) (write_at d o x) 0%N = nth k x 0%N.
Proof.
  intros H Hk. unfold write_at.
  rewrite app_nth2; rewrite firstn_length; [|lia].
  rewrite app_nth1 by lia. f_equal. lia.
Qed.

Lemma nth_firstn {A} (l : list A) n k (dv : A) : k < n -> nth k (firstn n l) dv = nth k l dv.
Proof.
  revert n k. induction l as [|x l IH]; intros n k H.
  - rewrite firstn_nil. destruct k; reflexivity.
  - destruct n; [lia|]. destruct k; cbn; [reflexivity|]. apply IH. lia.
Qed.

Lemma nth_skipn {A} (l : list A) n k (dv : A) : nth k (skipn n l) dv = nth (n + k) l dv.
Proof.
  revert l. induction n as [|n IH]; intros l; [reflexivity|].
  destruct l; cbn [skipn plus nth]; [destruct k; reflexivity|]. apply IH.
Qed.

Lemma nth_write_at_out d o x k :
  o + List.length x <= List.length d -> k < o \/ o + List.length x <= k ->
  nth k (write_at d o x) 0%N = nth k d 0%N.
Proof.
  intros H [Hk|Hk]; unfold write_at.
  - rewrite app_nth1 by (rewrite firstn_length; lia). apply nth_firstn. lia.
  - rewrite app_nth2; rewrite firstn_length; [|lia].
    rewrite app_nth2 by lia. rewrite nth_skipn. f_equal. lia.
Qed.

Lemma desc_get_set_same d i s l d' : desc_set d i s l = Ok d' -> desc_get d' i = Some (s, l).
Proof.
  intros H. apply desc_set_ok in H. destruct H as (_ & _ & Hl & ->).
  unfold desc_get, SLICE_DESCRIPTOR_SIZE.
  rewrite len_write_at by (cbn [List.length]; lia).
  destruct (Nat.ltb_spec (len d) (i * 4 + 4)); [lia|].
  rewrite !nth_write_at_in by (cbn [List.length]; lia). cbn [nth].
  rewrite !div_mod_u16, !Nat2N.id. reflexivity.
Qed.

Lemma desc_get_set_other d i s l d' j :
  desc_set d i s l = Ok d' -> i <> j -> desc_get d' j = desc_get d j.
Proof.
  intros H Hij. apply desc_set_ok in H. destruct H as (_ & _ & Hl & ->).
  unfold desc_get, SLICE_DESCRIPTOR_SIZE.
  rewrite len_write_at by (cbn [List.length]; lia).
  destruct (Nat.ltb_spec (len d) (j * 4 + 4)); [reflexivity|].
  rewrite !nth_write_at_out by (cbn [List.length]; lia). reflexivity.
Qed.

(** ** Layout invariant: [s] is the stack, newest item first, with start offsets *)
Definition used (s : list (nat * bytes)) : nat :=
  match s with [] => 0 | (st, c) :: _ => st + len c end.

Fixpoint layout (dsc dat : bytes) (s : list (nat * bytes)) : Prop :=
  match s with
  | [] => True
  | (st, c) :: s' =>
      desc_get dsc (List.length s') = Some (st, len c) /\
      used s' <= st /\
      slice dat st (st + len c) = Some c /\
      (N.of_nat st <= 65535)%N /\ (N.of_nat (len c) <= 65535)%N /\
      layout dsc dat s'
  end.

Definition Inv (p : pool) (s : list (nat * bytes)) : Prop :=
  count p = List.length s /\ (N.of_nat (count p) <= max_slices p)%N /\
  layout (descriptor p) (data p) s.

Lemma layout_write dsc dat s w d :
  layout dsc dat s -> used s <= w -> w + len d <= len dat -> layout dsc (write_at dat w d) s.
Proof.
  revert w d. induction s as [|[st c] s IH]; intros w d H Hu Hw; [exact I|].
  cbn [layout used] in *. destruct H as (H1 & H2 & H3 & H4 & H5 & H6).
  repeat split; auto.
  - apply slice_write_below; auto.
  - apply IH; auto. lia.
Qed.

Lemma layout_set dsc dat s i st l dsc' :
  desc_set dsc i st l = Ok dsc' -> List.length s <= i -> layout dsc dat s -> layout dsc' dat s.
Proof.
  intros Hs. revert i Hs. induction s as [|[st' c] s IH]; intros i Hs Hi H; [exact I|].
  cbn [layout List.length] in *. destruct H as (H1 & H2 & H3 & H4 & H5 & H6).
  repeat split; auto.
  - rewrite (desc_get_set_other _ _ _ _ _ _ Hs) by lia. exact H1.
  - apply (IH i); auto. lia.
Qed.

Lemma layout_used dsc dat s : layout dsc dat s -> used s <= len dat.
Proof.
  destruct s as [|[st c] s]; cbn; [lia|]. intros (_ & _ & H & _).
  apply slice_len in H. lia.
Qed.

Lemma data_used_inv p s : Inv p s -> data_used p = used s.
Proof.
  intros (Hc & _ & Hl). unfold data_used. rewrite Hc.
  destruct s as [|[st c] s]; cbn [List.length]; [reflexivity|].
  destruct (Nat.eqb_spec (S (List.length s)) 0); [lia|].
  cbn [layout] in Hl. destruct Hl as (H1 & _).
  replace (S (List.length s) - 1) with (List.length s) by lia. rewrite H1. reflexivity.
Qed.

Lemma next_multiple_ge x a : 0 < a -> x <= next_multiple_of x a.
Proof. intros H. unfold next_multiple_of. destruct (x mod a) eqn:E; lia. Qed.

Lemma next_multiple_least x a :
  0 < a -> (exists k, next_multiple_of x a = k * a) /\
           x <= next_multiple_of x a /\ (forall k, x <= k * a -> next_multiple_of x a <= k * a).
Proof.
  intros H. unfold next_multiple_of.
  assert (E := Nat.div_mod x a ltac:(lia)).
  assert (B := Nat.mod_upper_bound x a ltac:(lia)).
  destruct (x mod a) as [|r].
  - repeat split; [exists (x / a); lia|lia|lia].
  - repeat split.
    + exists (x / a + 1). nia.
    + lia.
    + intros k Hk. assert (x / a < k) by nia. nia.
Qed.

Lemma next_multiple_1 x : next_multiple_of x 1 = x.
Proof. unfold next_multiple_of. rewrite Nat.mod_1_r. reflexivity. Qed.

(** Characterisation of [reserve] under the invariant. *)
Lemma reserve_spec p s t n :
  Inv p s -> 0 < t_align t ->
  reserve p t n =
  (if (max_slices p <=? N.of_nat (List.length s))%N then Err (SliceLimitExceeded (max_slices p))
   else let st := next_multiple_of (used s) (t_align t) in
        if len (data p) <? st + t_size t + n
        then Err (BufferOverflow (st - used s + t_size t + n) (len (data p) - used s))
        else Ok (st, st + t_size t + n)).
Proof.
  intros HI Ha. unfold reserve. rewrite (data_used_inv _ _ HI).
  destruct HI as (Hc & _ & Hl). rewrite Hc.
  destruct (max_slices p <=? N.of_nat (List.length s))%N; [reflexivity|].
  cbn zeta. apply layout_used in Hl.
  assert (H := next_multiple_ge (used s) (t_align t) Ha).
  destruct (Nat.ltb_spec (len (data p) - used s)
             (next_multiple_of (used s) (t_align t) - used s + t_size t + n)) as [H1|H1];
  destruct (Nat.ltb_spec (len (data p))
             (next_multiple_of (used s) (t_align t) + t_size t + n)) as [H2|H2];
  try reflexivity; lia.
Qed.

Lemma desc_set_spec d i s l :
  desc_set d i s l =
  (if (65535 <? N.of_nat s)%N then Err (ValueTooLarge (N.of_nat s) 65535)
   else if (65535 <? N.of_nat l)%N then Err (ValueTooLarge (N.of_nat l) 65535)
   else if List.length d <? i * 4 + 4 then Err (IndexOutOfBounds i (List.length d / 4))
   else Ok (write_at d (i * 4) [(N.of_nat s mod 256)%N; (N.of_nat s / 256)%N;
                           (N.of_nat l mod 256)%N; (N.of_nat l / 256)%N])).
Proof. reflexivity. Qed.

(** Adding an item: the general step behind both pushes. *)
Lemma Inv_push p s st c dat dsc :
  Inv p s -> (N.of_nat (List.length s) < max_slices p)%N ->
  used s <= st ->
  layout (descriptor p) dat s ->
  slice dat st (st + len c) = Some c ->
  desc_set (descriptor p) (List.length s) st (len c) = Ok dsc ->
  Inv (mkPool (max_slices p) (count p + 1) dsc dat) ((st, c) :: s).
Proof.
  intros (Hc & Hm & _) Hlim Hu Hl Hs Hd.
  unfold Inv. cbn [count max_slices descriptor data List.length].
  split; [lia|]. split; [lia|].
  cbn [layout]. pose proof (desc_set_ok _ _ _ _ _ Hd) as (H1 & H2 & _ & _).
  repeat split; auto.
  - eapply desc_get_set_same; eauto.
  - eapply layout_set; eauto.
Qed.

Lemma Inv_data p s dat : Inv p s -> layout (descriptor p) dat s -> Inv (set_data p dat) s.
Proof. intros (H1 & H2 & _) Hl. unfold Inv. cbn. auto. Qed.

(** What [push_assoc] does, completely. *)
Definition push_error (p : pool) (s : list (nat * bytes)) (t : ty) (n : nat) : option perror :=
  let st := next_multiple_of (used s) (t_align t) in
  if (max_slices p <=? N.of_nat (List.length s))%N then Some (SliceLimitExceeded (max_slices p))
  else if len (data p) <? st + t_size t + n
       then Some (BufferOverflow (st - used s + t_size t + n) (len (data p) - used s))
  else if (65535 <? N.of_nat st)%N then Some (ValueTooLarge (N.of_nat st) 65535)
  else if (65535 <? N.of_nat (t_size t + n))%N
       then Some (ValueTooLarge (N.of_nat (t_size t + n)) 65535)
  else if List.length (descriptor p) <? List.length s * 4 + 4
       then Some (IndexOutOfBounds (List.length s) (List.length (descriptor p) / 4))
  else None.

Lemma push_assoc_spec p s t a d :
  Inv p s -> 0 < t_align t -> len a = t_size t ->
  exists p', max_slices p' = max_slices p /\
    List.length (descriptor p') = List.length (descriptor p) /\
    len (data p') = len (data p) /\
    match push_error p s t (len d) with
    | Some e => push_assoc p t a d = Done (p', Err e) /\ Inv p' s
    | None => push_assoc p t a d = Done (p', Ok (a, d)) /\
              Inv p' ((next_multiple_of (used s) (t_align t), a ++ d) :: s)
    end.
Proof.
  intros HI Ha Hsz. unfold push_assoc, push_error.
  rewrite (reserve_spec p s) by assumption. cbn zeta.
  set (st := next_multiple_of (used s) (t_align t)).
  destruct (N.leb_spec (max_slices p) (N.of_nat (List.length s))) as [Hlim|Hlim].
  { exists p. auto. }
  destruct (Nat.ltb_spec (len (data p)) (st + t_size t + len d)) as [Hov|Hov].
  { exists p. auto. }
  assert (Hge : used s <= st) by (apply next_multiple_ge; exact Ha).
  destruct (slice_some (data p) st (st + t_size t)) as [x Hx]; [lia|lia|].
  rewrite Hx. cbn [set_data data].
  assert (HL1 : len (write_at (data p) st a) = len (data p)) by (apply len_write_at; lia).
  destruct (slice_some (write_at (data p) st a) (st + t_size t) (st + t_size t + len d)) as [y Hy]; [lia|lia|].
  rewrite Hy.
  set (dat := write_at (write_at (data p) st a) (st + t_size t) d).
  assert (HL2 : len dat = len (data p)) by (unfold dat; rewrite len_write_at; lia).
  assert (Hlay : layout (descriptor p) dat s).
  { destruct HI as (_ & _ & Hl). unfold dat.
    apply layout_write; [apply layout_write; auto; lia| lia | lia]. }
  assert (S1 : slice dat st (st + t_size t) = Some a).
  { unfold dat. apply slice_write_below; [|lia|lia]. rewrite <- Hsz. apply slice_write_same. lia. }
  assert (S2 : slice dat (st + t_size t) (st + t_size t + len d) = Some d).
  { unfold dat. apply slice_write_same. lia. }
  assert (S3 : slice dat st (st + len (a ++ d)) = Some (a ++ d)).
  { rewrite app_length, Hsz, Nat.add_assoc. eapply slice_app; eauto. }
  unfold finalize_push. cbn [set_data descriptor count].
  replace (st + t_size t + len d - st) with (t_size t + len d) by lia.
  assert (Hcnt : count p = List.length s) by apply HI.
  rewrite Hcnt.
  destruct (desc_set (descriptor p) (List.length s) st (t_size t + len d)) as [dsc|e] eqn:Hd.
  - cbn [set_count set_descriptor data count max_slices descriptor set_data].
    rewrite S1, S2.
    pose proof (desc_set_ok _ _ _ _ _ Hd) as (B1 & B2 & B3 & B4).
    exists (mkPool (max_slices p) (List.length s + 1) dsc dat).
    cbn [max_slices descriptor data].
    split; [reflexivity|]. split; [rewrite B4; apply len_write_at; cbn [List.length]; lia|]. split; [lia|].
    destruct (N.ltb_spec 65535 (N.of_nat st)); [lia|].
    destruct (N.ltb_spec 65535 (N.of_nat (t_size t + len d))); [lia|].
    destruct (Nat.ltb_spec (len (descriptor p)) (List.length s * 4 + 4)); [lia|].
    split; [reflexivity|].
    rewrite <- Hcnt. apply Inv_push; auto.
    rewrite app_length, Hsz. exact Hd.
  - exists (set_data p dat). split; [reflexivity|]. split; [reflexivity|]. split; [exact HL2|].
    rewrite desc_set_spec in Hd.
    destruct (N.ltb_spec 65535 (N.of_nat st)).
    { injection Hd as <-. split; [reflexivity|]. apply Inv_data; auto. }
    destruct (N.ltb_spec 65535 (N.of_nat (t_size t + len d))).
    { injection Hd as <-. split; [reflexivity|]. apply Inv_data; auto. }
    destruct (Nat.ltb_spec (len (descriptor p)) (List.length s * 4 + 4)); [|discriminate].
    injection Hd as <-. split; [reflexivity|]. apply Inv_data; auto.
Qed.

Lemma write_at_nil l w : w <= len l -> write_at l w [] = l.
Proof. intros H. unfold write_at. cbn [List.length app]. rewrite Nat.add_0_r. apply firstn_skipn. Qed.

(** The plain push is the push of the unit value. *)
Lemma push_as_assoc p s d :
  Inv p s ->
  push p d = match push_assoc p unit_ty [] d with
             | Done (p', Ok (_, b)) => Done (p', Ok b)
             | Done (p', Err e) => Done (p', Err e)
             | Panic => Panic
             | Diverge => Diverge
             end.
Proof.
  intros HI. unfold push, push_assoc.
  rewrite (reserve_spec p s) by (auto; cbn; lia).
  cbn zeta. cbn [unit_ty t_size t_align]. rewrite next_multiple_1, !Nat.add_0_r.
  destruct (max_slices p <=? N.of_nat (List.length s))%N; [reflexivity|].
  destruct (Nat.ltb_spec (len (data p)) (used s + len d)) as [Hov|Hov]; [reflexivity|].
  destruct (slice_some (data p) (used s) (used s)) as [x Hx]; [lia|lia|].
  rewrite !Nat.add_0_r, Hx. rewrite write_at_nil by lia.
  replace (set_data p (data p)) with p by (destruct p; reflexivity).
  destruct (slice (data p) (used s) (used s + len d)); [|reflexivity].
  destruct (finalize_push _ _ _) as [p3|] eqn:E; [|reflexivity].
  assert (len (data p3) = len (data p)) as HL.
  { unfold finalize_push in E. destruct (desc_set _ _ _ _) in E; [|discriminate].
    injection E as <-. cbn [set_count set_descriptor data set_data]. apply len_write_at. lia. }
  destruct (slice_some (data p3) (used s) (used s)) as [z Hz]; [lia|lia|].
  rewrite Hz. destruct (slice (data p3) (used s) (used s + len d)); reflexivity.
Qed.

Lemma push_spec p s d :
  Inv p s ->
  exists p', max_slices p' = max_slices p /\
    List.length (descriptor p') = List.length (descriptor p) /\
    len (data p') = len (data p) /\
    match push_error p s unit_ty (len d) with
    | Some e => push p d = Done (p', Err e) /\ Inv p' s
    | None => push p d = Done (p', Ok d) /\ Inv p' ((used s, d) :: s)
    end.
Proof.
  intros HI.
  destruct (push_assoc_spec p s unit_ty [] d HI) as (p' & H1 & H2 & H3 & H4); [cbn; lia|reflexivity|].
  exists p'. rewrite (push_as_assoc p s d HI).
  split; [exact H1|]. split; [exact H2|]. split; [exact H3|].
  destruct (push_error p s unit_ty (len d)) as [e|]; destruct H4 as [-> H5]; (split; [reflexivity|exact H5]).
Qed.

(** ** Reading *)
Definition strings (s : list (nat * bytes)) : list bytes := rev (map snd s).

Lemma strings_cons st c s : strings ((st, c) :: s) = strings s ++ [c].
Proof. reflexivity. Qed.
Lemma strings_length s : List.length (strings s) = List.length s.
Proof. unfold strings. rewrite rev_length, map_length. reflexivity. Qed.

(** Item [i] from the bottom. *)
Lemma layout_nth dsc dat s i :
  layout dsc dat s -> i < List.length s ->
  exists st c, nth_error (strings s) i = Some c /\
    desc_get dsc i = Some (st, len c) /\ slice dat st (st + len c) = Some c /\
    (N.of_nat st <= 65535)%N.
Proof.
  induction s as [|[st c] s IH]; intros Hl Hi; [cbn in Hi; lia|].
  cbn [layout List.length] in *. destruct Hl as (H1 & H2 & H3 & H4 & H5 & H6).
  rewrite strings_cons.
  destruct (Nat.eq_dec i (List.length s)) as [->|Hne].
  - exists st, c. rewrite nth_error_app2; rewrite strings_length; [|lia].
    rewrite Nat.sub_diag. auto.
  - destruct IH as (st' & c' & I1 & I2); [auto|lia|].
    exists st', c'. rewrite nth_error_app1 by (rewrite strings_length; lia). auto.
Qed.

Lemma get_spec p s i : Inv p s -> get p i = Done (nth_error (strings s) i).
Proof.
  intros (Hc & _ & Hl). unfold get. rewrite Hc.
  destruct (Nat.leb_spec (List.length s) i) as [H|H].
  - f_equal. symmetry. apply nth_error_None. rewrite strings_length. exact H.
  - destruct (layout_nth _ _ _ _ Hl H) as (st & c & H1 & H2 & H3 & _).
    rewrite H2, H3, H1. reflexivity.
Qed.

Lemma last_opt_nth (l : list bytes) : last_opt l = nth_error l (List.length l - 1) .
Proof.
  unfold last_opt. destruct l as [|x l] using rev_ind; [reflexivity|].
  rewrite rev_app_distr. cbn [rev app]. rewrite app_length. cbn [List.length].
  rewrite nth_error_app2 by lia.
  replace (List.length l + 1 - 1 - List.length l) with 0 by lia. reflexivity.
Qed.

Lemma last_opt_strings_nil : last_opt (strings []) = None. Proof. reflexivity. Qed.
Lemma last_opt_snoc l (x : bytes) : last_opt (l ++ [x]) = Some x.
Proof. unfold last_opt. rewrite rev_app_distr. reflexivity. Qed.

Lemma top_spec p s : Inv p s -> top p = Done (last_opt (strings s)).
Proof.
  intros HI. unfold top. rewrite (get_spec p s) by exact HI.
  destruct HI as (Hc & _). rewrite Hc, last_opt_nth, strings_length.
  destruct (Nat.eqb_spec (List.length s) 0) as [H|H]; [|reflexivity].
  destruct s; [reflexivity|discriminate].
Qed.

Lemma pop_spec p s :
  Inv p s ->
  exists p', pop p = Done (p', last_opt (strings s)) /\ Inv p' (tl s) /\
    max_slices p' = max_slices p /\ descriptor p' = descriptor p /\ data p' = data p.
Proof.
  intros (Hc & Hm & Hl). unfold pop. rewrite Hc.
  destruct s as [|[st c] s]; cbn [List.length Nat.eqb].
  - exists p. repeat split; auto.
  - cbn [set_count descriptor count data]. rewrite Nat.sub_0_r || idtac.
    replace (S (List.length s) - 1) with (List.length s) by lia.
    cbn [layout] in Hl. destruct Hl as (H1 & H2 & H3 & H4 & H5 & H6).
    rewrite H1, H3. exists (mkPool (max_slices p) (List.length s) (descriptor p) (data p)).
    rewrite strings_cons, last_opt_snoc. cbn [List.length] in *.
    repeat split; cbn [count max_slices descriptor data tl]; auto. lia.
Qed.

Lemma assoc_positions_spec p s t i :
  Inv p s ->
  match assoc_positions p t i, obind_opt (nth_error (strings s) i) (split_value (t_size t)) with
  | None, None => True
  | Some (a, b, c), Some (v, d) =>
      slice (data p) a b = Some v /\ slice (data p) b c = Some d /\
      b = a + t_size t /\ desc_get (descriptor p) i = Some (a, len v + len d)
      /\ len v = t_size t /\ nth_error (strings s) i = Some (v ++ d)
  | _, _ => False
  end.
Proof.
  intros (Hc & _ & Hl). unfold assoc_positions. rewrite Hc.
  destruct (Nat.leb_spec (List.length s) i) as [H|H].
  - replace (nth_error (strings s) i) with (@None bytes); [exact I|].
    symmetry. apply nth_error_None. rewrite strings_length. exact H.
  - destruct (layout_nth _ _ _ _ Hl H) as (st & c & H1 & H2 & H3 & _).
    rewrite H1, H2. cbn [obind_opt]. unfold split_value.
    destruct (Nat.ltb_spec (len c) (t_size t)); destruct (Nat.leb_spec (t_size t) (len c)); try lia.
    destruct (slice_split (data p) st (st + len c) c (t_size t) H3 eq_refl ltac:(lia)) as [A B].
    rewrite firstn_skipn, firstn_length, skipn_length.
    repeat split; auto; try lia. f_equal. f_equal. lia.
Qed.

Lemma get_assoc_spec p s t i :
  Inv p s -> get_assoc p t i = Done (obind_opt (nth_error (strings s) i) (split_value (t_size t))).
Proof.
  intros HI. unfold get_assoc. pose proof (assoc_positions_spec p s t i HI) as H.
  destruct (assoc_positions p t i) as [[[a b] c]|];
  destruct (obind_opt _ _) as [[v d]|]; try contradiction; [|reflexivity].
  destruct H as (H1 & H2 & _). unfold extract_assoc. rewrite H1, H2. reflexivity.
Qed.

Lemma Inv_last p s :
  Inv p s -> count p =? 0 = (List.length s =? 0) /\
    nth_error (strings s) (count p - 1) = last_opt (strings s).
Proof. intros (Hc & _). rewrite Hc, last_opt_nth, strings_length. auto. Qed.

Lemma top_assoc_spec p s t :
  Inv p s -> top_assoc p t = Done (obind_opt (last_opt (strings s)) (split_value (t_size t))).
Proof.
  intros HI. unfold top_assoc. rewrite (get_assoc_spec p s) by exact HI.
  destruct (Inv_last p s HI) as [-> ->].
  destruct s; reflexivity.
Qed.

Lemma top_assoc_obj_spec p s t :
  Inv p s -> top_assoc_obj p t =
    Done (option_map fst (obind_opt (last_opt (strings s)) (split_value (t_size t)))).
Proof.
  intros HI. unfold top_assoc_obj.
  pose proof (assoc_positions_spec p s t (count p - 1) HI) as H.
  destruct (Inv_last p s HI) as [H1 H2]. rewrite H2 in H. rewrite H1.
  destruct s as [|x s]; [reflexivity|]. cbn [List.length Nat.eqb].
  destruct (assoc_positions p t (count p - 1)) as [[[a b] c]|];
  destruct (obind_opt _ _) as [[v d]|]; try contradiction; [|reflexivity].
  destruct H as (-> & _). reflexivity.
Qed.

Lemma top_assoc_bytes_spec p s t :
  Inv p s -> top_assoc_bytes p t =
    Done (option_map snd (obind_opt (last_opt (strings s)) (split_value (t_size t)))).
Proof.
  intros HI. unfold top_assoc_bytes.
  pose proof (assoc_positions_spec p s t (count p - 1) HI) as H.
  destruct (Inv_last p s HI) as [H1 H2]. rewrite H2 in H. rewrite H1.
  destruct s as [|x s]; [reflexivity|]. cbn [List.length Nat.eqb].
  destruct (assoc_positions p t (count p - 1)) as [[[a b] c]|];
  destruct (obind_opt _ _) as [[v d]|]; try contradiction; [|reflexivity].
  destruct H as (_ & -> & _). reflexivity.
Qed.

Lemma Inv_tl p x s : Inv p (x :: s) -> Inv (set_count p (count p - 1)) s.
Proof.
  intros (Hc & Hm & Hl). destruct x as [st c]. cbn [layout List.length] in *.
  unfold Inv. cbn. repeat split; [lia|lia|apply Hl].
Qed.

Lemma pop_assoc_spec p s t :
  Inv p s ->
  match obind_opt (last_opt (strings s)) (split_value (t_size t)) with
  | None => pop_assoc p t = Done (p, None)
  | Some r => pop_assoc p t = Done (set_count p (count p - 1), Some r) /\
              Inv (set_count p (count p - 1)) (tl s) /\ s <> []
  end.
Proof.
  intros HI. unfold pop_assoc.
  pose proof (assoc_positions_spec p s t (count p - 1) HI) as H.
  destruct (Inv_last p s HI) as [H1 H2]. rewrite H2 in H. rewrite H1.
  destruct s as [|x s]; [reflexivity|]. cbn [List.length Nat.eqb].
  destruct (assoc_positions p t (count p - 1)) as [[[a b] c]|];
  destruct (obind_opt _ _) as [[v d]|]; try contradiction; [|reflexivity].
  destruct H as (E1 & E2 & _). unfold extract_assoc. cbn [set_count data]. rewrite E1, E2.
  cbn [obind]. repeat split; [apply (Inv_tl p x s HI)|apply (Inv_tl p x s HI)| apply (Inv_tl p x s HI)|discriminate].
Qed.

(** Replacing the bytes of the top item, all cases. *)
Definition replace_error (p : pool) (s : list (nat * bytes)) (t : ty) (n : nat) : option perror :=
  match s with
  | [] => Some (IndexOutOfBounds 0 0)
  | (st, c) :: _ =>
      if len c <? t_size t then Some (InvalidInitialization RNoPositions)
      else if len (data p) <? st + t_size t + n
      then Some (BufferOverflow n (len (data p) - (st + t_size t)))
      else if (65535 <? N.of_nat (t_size t + n))%N
      then Some (ValueTooLarge (N.of_nat (t_size t + n)) 65535)
      else None
  end.

Lemma firstn_write_top l a n (d : bytes) x :
  slice l a (a + len x) = Some x -> n <= len x -> len x - n <= len d -> a + n + len d <= len l ->
  slice (write_at l (a + n) d) a (a + len x) = Some (firstn n x ++ firstn (len x - n) d).
Proof.
  intros H Hn Hd Hl. apply slice_spec in H. destruct H as (l1 & l2 & -> & <- & _).
  apply slice_spec. unfold write_at.
  exists l1, (skipn (len x - n) d ++ skipn (len l1 + n + len d) (l1 ++ x ++ l2)).
  rewrite app_length, !firstn_length. split; [|split; lia].
  rewrite firstn_app, firstn_all2 by lia.
  replace (len l1 + n - len l1) with n by lia.
  rewrite firstn_app. replace (n - len x) with 0 by lia. cbn [firstn].
  rewrite app_nil_r, <- !app_assoc. f_equal. f_equal.
  rewrite (app_assoc (firstn (len x - n) d)), firstn_skipn. reflexivity.
Qed.

Lemma replace_spec p s t d :
  Inv p s ->
  exists p', max_slices p' = max_slices p /\
    List.length (descriptor p') = List.length (descriptor p) /\
    len (data p') = len (data p) /\
    match replace_error p s t (len d) with
    | None => replace_top_assoc_bytes p t d = Done (p', Ok d) /\
              match s with
              | (st, c) :: s' => t_size t <= len c /\ Inv p' ((st, firstn (t_size t) c ++ d) :: s')
              | [] => False
              end
    | Some (ValueTooLarge x m) =>
        replace_top_assoc_bytes p t d = Done (p', Err (ValueTooLarge x m)) /\
        (65535 < N.of_nat (t_size t + len d))%N /\
        match s with
        | (st, c) :: s' =>
            t_size t <= len c /\
            Inv p' ((st, firstn (t_size t) c ++ firstn (len c - t_size t) d) :: s')
        | [] => False
        end
    | Some e => replace_top_assoc_bytes p t d = Done (p, Err e)
    end.
Proof.
  intros HI. unfold replace_top_assoc_bytes, replace_error.
  pose proof HI as (Hc & Hm & Hl). rewrite Hc.
  destruct s as [|[st c] s].
  { exists p. cbn [List.length Nat.eqb]. auto. }
  cbn [List.length] in *. cbn [Nat.eqb].
  replace (S (List.length s) - 1) with (List.length s) by lia.
  cbn [layout] in Hl. destruct Hl as (L1 & L2 & L3 & L4 & L5 & L6).
  unfold assoc_positions. rewrite Hc, L1.
  destruct (Nat.leb_spec (S (List.length s)) (List.length s)); [lia|].
  destruct (Nat.ltb_spec (len c) (t_size t)) as [Hs|Hs].
  { exists p. auto. }
  destruct (Nat.ltb_spec (len (data p)) (st + t_size t + len d)) as [Ho|Ho].
  { exists p. auto. }
  destruct (slice_some (data p) (st + t_size t) (st + t_size t + len d)) as [x Hx]; [lia|lia|].
  rewrite Hx. cbn [set_data descriptor data].
  replace (st + t_size t - st + len d) with (t_size t + len d) by lia.
  set (dat := write_at (data p) (st + t_size t) d).
  assert (HL : len dat = len (data p)) by (apply len_write_at; lia).
  assert (Hlay : layout (descriptor p) dat s) by (apply layout_write; auto; lia).
  assert (S1 : slice dat (st + t_size t) (st + t_size t + len d) = Some d)
    by (apply slice_write_same; lia).
  assert (S2 : slice dat st (st + t_size t) = Some (firstn (t_size t) c)).
  { apply slice_write_below; [|lia|lia].
    apply (slice_split (data p) st (st + len c) c (t_size t) L3 eq_refl Hs). }
  rewrite desc_set_spec.
  destruct (N.ltb_spec 65535 (N.of_nat st)); [lia|].
  destruct (N.ltb_spec 65535 (N.of_nat (t_size t + len d))) as [Hbig|Hbig].
  - exists (set_data p dat). cbn [set_data max_slices descriptor data].
    split; [reflexivity|]. split; [reflexivity|]. split; [exact HL|]. split; [reflexivity|].
    split; [lia|]. split; [exact Hs|].
    unfold Inv. cbn [set_data count max_slices descriptor data layout List.length].
    rewrite app_length, !firstn_length.
    replace (Nat.min (t_size t) (len c) + Nat.min (len c - t_size t) (len d)) with (len c) by lia.
    repeat split; auto.
    apply firstn_write_top; auto; lia.
  - destruct (Nat.ltb_spec (len (descriptor p)) (List.length s * 4 + 4)) as [Hd|Hd].
    { exfalso. unfold desc_get, SLICE_DESCRIPTOR_SIZE in L1.
      destruct (Nat.ltb_spec (len (descriptor p)) (List.length s * 4 + 4)); [discriminate|lia]. }
    cbn [set_descriptor set_data data]. fold dat. rewrite S1.
    match goal with |- context [set_descriptor _ ?D] => set (dsc := D) end.
    assert (Hset : desc_set (descriptor p) (List.length s) st (t_size t + len d) = Ok dsc).
    { rewrite desc_set_spec. destruct (N.ltb_spec 65535 (N.of_nat st)); [lia|].
      destruct (N.ltb_spec 65535 (N.of_nat (t_size t + len d))); [lia|].
      destruct (Nat.ltb_spec (len (descriptor p)) (List.length s * 4 + 4)); [lia|reflexivity]. }
    eexists. split; [|split; [|split; [|split; [reflexivity|]]]].
    + reflexivity.
    + cbn [set_descriptor set_data descriptor]. unfold dsc. apply len_write_at. cbn [List.length]. lia.
    + cbn [set_descriptor set_data data]. exact HL.
    + split; [exact Hs|].
      unfold Inv. cbn [set_descriptor set_data count max_slices descriptor data layout List.length].
      rewrite app_length, firstn_length, Nat.min_l by lia.
      repeat split; auto.
      * eapply desc_get_set_same; eauto.
      * rewrite Nat.add_assoc. eapply slice_app; eauto.
      * eapply layout_set; eauto.
Qed.

(** ** Histories *)
Lemma Inv_new checks buffer lim p :
  pool_new checks buffer lim = Done (Ok p) -> Inv p [] /\ max_slices p = lim.
Proof.
  unfold pool_new. destruct (lim =? 0)%N; [discriminate|].
  destruct (len buffer =? 0); [discriminate|].
  destruct (usize_op checks (lim * 4)) as [m| |]; try discriminate. cbn [obind].
  destruct (usize_op checks (m + 1)) as [m1| |]; try discriminate. cbn [obind].
  destruct (_ <? m1)%N; [discriminate|]. destruct (_ <? m)%N; [discriminate|].
  intros H. injection H as <-. split; [|reflexivity].
  unfold Inv. cbn. repeat split. lia.
Qed.

Lemma removelast_strings x s : removelast (strings (x :: s)) = strings s.
Proof. destruct x as [st c]. rewrite strings_cons. apply removelast_last. Qed.
Lemma removelast_strings_tl s : removelast (strings s) = strings (tl s).
Proof. destruct s as [|x s]; [reflexivity|]. rewrite removelast_strings. reflexivity. Qed.

(** One step: the pool answers, keeps its dimensions and refines the stack. *)
Lemma step_refines p s o :
  Inv p s -> op_typed o ->
  exists p' a s', step p o = Done (p', a) /\ Inv p' s' /\
    stack_step (strings s) o a (strings s') /\
    max_slices p' = max_slices p /\ List.length (descriptor p') = List.length (descriptor p) /\
    len (data p') = len (data p).
Proof.
  intros HI Ht. destruct o; cbn [step op_typed] in *.
  - destruct (push_spec p s d HI) as (p' & H1 & H2 & H3 & H4).
    destruct (push_error p s unit_ty (len d)) as [e|]; destruct H4 as [-> H5]; cbn [obind].
    + exists p', (ABytesRes (Err e)), s. repeat split; auto; try apply H5. constructor.
    + exists p', (ABytesRes (Ok d)), ((used s, d) :: s). repeat split; auto; try apply H5.
      rewrite strings_cons. constructor.
  - destruct Ht as [Ht1 Ht2].
    destruct (push_assoc_spec p s t value d HI Ht2 Ht1) as (p' & H1 & H2 & H3 & H4).
    destruct (push_error p s t (len d)) as [e|]; destruct H4 as [-> H5]; cbn [obind].
    + exists p', (AAssocRes (Err e)), s. repeat split; auto; try apply H5. constructor.
    + eexists p', (AAssocRes (Ok (value, d))), _. split; [reflexivity|]. split; [exact H5|].
      rewrite strings_cons. repeat split; auto. constructor.
  - destruct (pop_spec p s HI) as (p' & -> & H1 & H2 & H3 & H4). cbn [obind].
    eexists p', _, (tl s). split; [reflexivity|]. split; [exact H1|].
    rewrite <- removelast_strings_tl, H3, H4. repeat split; auto. constructor.
  - pose proof (pop_assoc_spec p s t HI) as H.
    destruct (obind_opt (last_opt (strings s)) (split_value (t_size t))) as [[v d]|] eqn:E.
    + destruct H as (-> & H1 & _). cbn [obind].
      eexists _, _, (tl s). split; [reflexivity|]. split; [exact H1|].
      rewrite <- removelast_strings_tl. repeat split; auto. constructor. exact E.
    + rewrite H. cbn [obind]. eexists p, _, s. split; [reflexivity|]. split; [exact HI|].
      repeat split; auto. constructor. exact E.
  - eexists (pool_clear p), _, []. split; [reflexivity|]. split.
    { unfold Inv. cbn. repeat split. lia. }
    repeat split; auto. constructor.
  - eexists p, _, s. split; [reflexivity|]. split; [exact HI|]. repeat split; auto.
    unfold pool_len. destruct HI as (-> & _). rewrite <- strings_length. constructor.
  - eexists p, _, s. split; [reflexivity|]. split; [exact HI|]. repeat split; auto.
    unfold pool_is_empty. destruct HI as (-> & _). rewrite <- strings_length. constructor.
  - rewrite (get_spec p s) by exact HI. cbn [obind].
    eexists p, _, s. split; [reflexivity|]. split; [exact HI|]. repeat split; auto. constructor.
  - rewrite (top_spec p s) by exact HI. cbn [obind].
    eexists p, _, s. split; [reflexivity|]. split; [exact HI|]. repeat split; auto. constructor.
  - rewrite (get_assoc_spec p s) by exact HI. cbn [obind].
    eexists p, _, s. split; [reflexivity|]. split; [exact HI|]. repeat split; auto. constructor.
  - rewrite (top_assoc_spec p s) by exact HI. cbn [obind].
    eexists p, _, s. split; [reflexivity|]. split; [exact HI|]. repeat split; auto. constructor.
  - rewrite (top_assoc_obj_spec p s) by exact HI. cbn [obind].
    eexists p, _, s. split; [reflexivity|]. split; [exact HI|]. repeat split; auto. constructor.
  - rewrite (top_assoc_bytes_spec p s) by exact HI. cbn [obind].
    eexists p, _, s. split; [reflexivity|]. split; [exact HI|]. repeat split; auto. constructor.
  - destruct (replace_spec p s t d HI) as (p' & H1 & H2 & H3 & H4).
    destruct (replace_error p s t (len d)) as [e|] eqn:Er.
    + assert (Hother : (forall x m, e <> ValueTooLarge x m) ->
                replace_top_assoc_bytes p t d = Done (p, Err e) ->
                exists p' a s', (do (p'0, r) <- replace_top_assoc_bytes p t d; Done (p'0, ABytesRes r)) = Done (p', a)
                  /\ Inv p' s' /\ stack_step (strings s) (OReplace t d) a (strings s') /\
                  max_slices p' = max_slices p /\ List.length (descriptor p') = List.length (descriptor p) /\
                  len (data p') = len (data p)).
      { intros Hne ->. cbn [obind]. eexists p, _, s. split; [reflexivity|]. split; [exact HI|].
        repeat split; auto. constructor. exact Hne. }
      destruct e as [r a|i l|r|m|x m]; try (apply Hother; [discriminate|exact H4]).
      clear Hother. destruct H4 as (-> & Hbig & H4). cbn [obind].
      destruct s as [|[st c] s]; [contradiction|]. destruct H4 as (Hs & H4).
      eexists p', _, _. split; [reflexivity|]. split; [exact H4|].
      split; [|auto]. rewrite (strings_cons _ (firstn _ _ ++ _)).
      rewrite <- (removelast_strings (st, c) s).
      replace (len c - t_size t) with (len (skipn (t_size t) c)) by apply skipn_length.
      apply st_replace_clobber; auto. rewrite strings_cons, last_opt_snoc. cbn [obind_opt].
      unfold split_value. destruct (Nat.leb_spec (t_size t) (len c)); [reflexivity|lia].
    + destruct H4 as (-> & H4). cbn [obind].
      destruct s as [|[st c] s]; [contradiction|]. destruct H4 as (Hs & H4).
      eexists p', _, _. split; [reflexivity|]. split; [exact H4|].
      split; [|auto]. rewrite (strings_cons _ (firstn _ _ ++ _)).
      rewrite <- (removelast_strings (st, c) s).
      apply st_replace_ok with (old := skipn (t_size t) c).
      rewrite strings_cons, last_opt_snoc. cbn [obind_opt].
      unfold split_value. destruct (Nat.leb_spec (t_size t) (len c)); [reflexivity|lia].
Qed.

Lemma run_refines ops : forall p s,
  Inv p s -> Forall op_typed ops ->
  exists p' l s', run p ops = Done (p', l) /\ Inv p' s' /\
    stack_run (strings s) ops l (strings s') /\
    max_slices p' = max_slices p /\ List.length (descriptor p') = List.length (descriptor p) /\
    len (data p') = len (data p).
Proof.
  induction ops as [|o ops IH]; intros p s HI Ht.
  - exists p, [], s. cbn. repeat split; auto; try apply HI. constructor.
  - inversion Ht as [|? ? Ho Hr]; subst.
    destruct (step_refines p s o HI Ho) as (p1 & a & s1 & E1 & I1 & S1 & M1 & D1 & L1).
    destruct (IH p1 s1 I1 Hr) as (p2 & l & s2 & E2 & I2 & S2 & M2 & D2 & L2).
    exists p2, (a :: l), s2. cbn [run]. rewrite E1. cbn [obind]. rewrite E2. cbn [obind].
    split; [reflexivity|]. split; [exact I2|]. split; [econstructor; eauto|].
    split; [congruence|]. split; congruence.
Qed.

Lemma reachable_Inv p : reachable p -> exists s, Inv p s.
Proof.
  intros (checks & buffer & lim & p0 & ops & answers & Hn & Ht & Hr).
  destruct (Inv_new _ _ _ _ Hn) as [HI _].
  destruct (run_refines ops p0 [] HI Ht) as (p' & l & s' & E & I' & _).
  rewrite E in Hr. injection Hr as -> ->. eauto.
Qed.

Lemma Inv_holds p s : Inv p s -> holds p (strings s).
Proof.
  intros HI. unfold holds, contents, pool_len.
  assert (H : forall i, get p i = Done (nth_error (strings s) i)) by (intros; apply get_spec; auto).
  destruct HI as (-> & _). rewrite <- strings_length.
  clear -H. revert H. generalize (strings s) as l. intros l H.
  assert (G : forall k l', (forall i, get p (k + i) = Done (nth_error l' i)) ->
             map (get p) (seq k (List.length l')) = map (fun x => Done (Some x)) l').
  { intros k l'. revert k. induction l' as [|x l' IH]; intros k Hk; [reflexivity|].
    cbn [List.length seq map]. f_equal.
    - rewrite <- (Nat.add_0_r k). apply (Hk 0).
    - apply IH. intros i. replace (S k + i) with (k + S i) by lia. apply (Hk (S i)). }
  apply (G 0). exact H.
Qed.

Lemma holds_inj p s s' : holds p s -> holds p s' -> s = s'.
Proof.
  unfold holds. intros -> H. revert s' H. induction s as [|x s IH]; intros [|y s'] H; try discriminate; auto.
  cbn in H. injection H as -> H. f_equal. apply IH. exact H.
Qed.

(** C01 *)
Lemma pool_is_stack checks buffer lim p0 ops :
  pool_new checks buffer lim = Done (Ok p0) -> Forall op_typed ops ->
  exists p answers s, run p0 ops = Done (p, answers) /\ stack_run [] ops answers s /\ holds p s.
Proof.
  intros Hn Ht. destruct (Inv_new _ _ _ _ Hn) as [HI _].
  destruct (run_refines ops p0 [] HI Ht) as (p & l & s & E & I' & S' & _).
  exists p, l, (strings s). repeat split; auto. apply Inv_holds. exact I'.
Qed.

(** Indistinguishability: the answers depend only on the stack with its layout. *)
Definition dims (p q : pool) : Prop :=
  max_slices p = max_slices q /\ List.length (descriptor p) = List.length (descriptor q) /\
  len (data p) = len (data q).

Lemma step_same p q s o :
  Inv p s -> Inv q s -> dims p q -> op_typed o ->
  exists p' q' a s', step p o = Done (p', a) /\ step q o = Done (q', a) /\
     Inv p' s' /\ Inv q' s' /\ dims p' q'.
Proof.
  intros HP HQ (D1 & D2 & D3) Ht.
  assert (Hpe : forall t n, push_error p s t n = push_error q s t n).
  { intros t n. unfold push_error. rewrite D1, D2, D3. reflexivity. }
  destruct o; cbn [step op_typed] in *.
  - destruct (push_spec p s d HP) as (p' & A1 & A2 & A3 & A4).
    destruct (push_spec q s d HQ) as (q' & B1 & B2 & B3 & B4).
    rewrite Hpe in A4.
    destruct (push_error q s unit_ty (len d)) as [e|]; destruct A4 as [-> A4]; destruct B4 as [-> B4];
    cbn [obind]; eexists p', q', _, _; repeat split; eauto; try apply A4; try apply B4; congruence.
  - destruct Ht as [Ht1 Ht2].
    destruct (push_assoc_spec p s t value d HP Ht2 Ht1) as (p' & A1 & A2 & A3 & A4).
    destruct (push_assoc_spec q s t value d HQ Ht2 Ht1) as (q' & B1 & B2 & B3 & B4).
    rewrite Hpe in A4.
    destruct (push_error q s t (len d)) as [e|]; destruct A4 as [-> A4]; destruct B4 as [-> B4];
    cbn [obind]; eexists p', q', _, _; (split; [reflexivity|]); (split; [reflexivity|]);
    (split; [exact A4|]); (split; [exact B4|]); repeat split; congruence.
  - destruct (pop_spec p s HP) as (p' & -> & A1 & A2 & A3 & A4).
    destruct (pop_spec q s HQ) as (q' & -> & B1 & B2 & B3 & B4). cbn [obind].
    eexists p', q', _, _; (split; [reflexivity|]); (split; [reflexivity|]);
    (split; [exact A1|]); (split; [exact B1|]); repeat split; congruence.
  - pose proof (pop_assoc_spec p s t HP) as A. pose proof (pop_assoc_spec q s t HQ) as B.
    destruct (obind_opt _ _) as [r|].
    + destruct A as (-> & A & _), B as (-> & B & _). cbn [obind].
      eexists _, _, _, _; (split; [reflexivity|]); (split; [reflexivity|]);
      (split; [exact A|]); (split; [exact B|]); repeat split; auto.
    + rewrite A, B. cbn [obind]. eexists _, _, _, _; (split; [reflexivity|]); (split; [reflexivity|]);
      (split; [exact HP|]); (split; [exact HQ|]); repeat split; auto.
  - eexists _, _, _, []; (split; [reflexivity|]); (split; [reflexivity|]).
    unfold Inv; cbn; repeat split; auto; lia.
  - eexists p, q, _, s. split; [reflexivity|]. split.
    { unfold pool_len. destruct HP as (-> & _), HQ as (-> & _). reflexivity. }
    repeat split; auto; try apply HP; apply HQ.
  - eexists p, q, _, s. split; [reflexivity|]. split.
    { unfold pool_is_empty. destruct HP as (-> & _), HQ as (-> & _). reflexivity. }
    repeat split; auto; try apply HP; apply HQ.
  - rewrite (get_spec p s), (get_spec q s) by assumption. cbn [obind].
    eexists p, q, _, s. repeat split; auto; try apply HP; apply HQ.
  - rewrite (top_spec p s), (top_spec q s) by assumption. cbn [obind].
    eexists p, q, _, s. repeat split; auto; try apply HP; apply HQ.
  - rewrite (get_assoc_spec p s), (get_assoc_spec q s) by assumption. cbn [obind].
    eexists p, q, _, s. repeat split; auto; try apply HP; apply HQ.
  - rewrite (top_assoc_spec p s), (top_assoc_spec q s) by assumption. cbn [obind].
    eexists p, q, _, s. repeat split; auto; try apply HP; apply HQ.
  - rewrite (top_assoc_obj_spec p s), (top_assoc_obj_spec q s) by assumption. cbn [obind].
    eexists p, q, _, s. repeat split; auto; try apply HP; apply HQ.
  - rewrite (top_assoc_bytes_spec p s), (top_assoc_bytes_spec q s) by assumption. cbn [obind].
    eexists p, q, _, s. repeat split; auto; try apply HP; apply HQ.
  - destruct (replace_spec p s t d HP) as (p' & A1 & A2 & A3 & A4).
    destruct (replace_spec q s t d HQ) as (q' & B1 & B2 & B3 & B4).
    assert (E : replace_error p s t (len d) = replace_error q s t (len d)).
    { unfold replace_error. rewrite D3. reflexivity. }
    rewrite E in A4.
    destruct (replace_error q s t (len d)) as [e|].
    + assert (Ho : replace_top_assoc_bytes p t d = Done (p, Err e) ->
                   replace_top_assoc_bytes q t d = Done (q, Err e) ->
        exists p' q' a s',
          (do (p'0, r) <- replace_top_assoc_bytes p t d; Done (p'0, ABytesRes r)) = Done (p', a) /\
          (do (p'0, r) <- replace_top_assoc_bytes q t d; Done (p'0, ABytesRes r)) = Done (q', a) /\
          Inv p' s' /\ Inv q' s' /\ dims p' q').
      { intros -> ->. cbn [obind]. eexists p, q, _, s. repeat split; auto; try apply HP; apply HQ. }
      destruct e; try (apply Ho; assumption). clear Ho.
      destruct A4 as (-> & _ & A4), B4 as (-> & _ & B4). cbn [obind].
      destruct s as [|[st c] s]; [contradiction|].
      eexists p', q', _, _. split; [reflexivity|]. split; [reflexivity|].
      split; [apply A4|]. split; [apply B4|]. repeat split; congruence.
    + destruct A4 as (-> & A4), B4 as (-> & B4). cbn [obind].
      destruct s as [|[st c] s]; [contradiction|].
      eexists p', q', _, _. split; [reflexivity|]. split; [reflexivity|].
      split; [apply A4|]. split; [apply B4|]. repeat split; congruence.
Qed.

Lemma Inv_same_answers p q s : Inv p s -> Inv q s -> dims p q -> same_answers p q.
Proof.
  intros HP HQ HD ops Ht. revert p q s HP HQ HD.
  induction ops as [|o ops IH]; intros p q s HP HQ HD; cbn [run]; [reflexivity|].
  inversion Ht as [|? ? Ho Hr]; subst.
  destruct (step_same p q s o HP HQ HD Ho) as (p1 & q1 & a & s1 & -> & -> & I1 & I2 & D1).
  cbn [obind]. specialize (IH Hr p1 q1 s1 I1 I2 D1).
  destruct (run p1 ops) as [[p2 l]| |]; try contradiction.
  destruct (run q1 ops) as [[q2 l']| |]; try contradiction.
  cbn [obind]. congruence.
Qed.

(** C02 *)
Lemma failed_push_no_trace p o p' e :
  reachable p -> op_typed o ->
  (exists d, o = OPush d /\ step p o = Done (p', ABytesRes (Err e))) \/
  (exists t v d, o = OPushAssoc t v d /\ step p o = Done (p', AAssocRes (Err e))) ->
  contents p' = contents p /\ same_answers p' p.
Proof.
  intros Hr Ht H. destruct (reachable_Inv p Hr) as [s HI].
  assert (G : Inv p' s /\ dims p' p).
  { destruct H as [(d & -> & H)|(t & v & d & -> & H)]; cbn [step] in H.
    - destruct (push_spec p s d HI) as (q & A1 & A2 & A3 & A4).
      destruct (push_error p s unit_ty (len d)) as [e'|]; destruct A4 as [E A4]; rewrite E in H;
      cbn [obind] in H; [|discriminate]. injection H as -> ->. repeat split; auto; apply A4.
    - destruct Ht as [Ht1 Ht2].
      destruct (push_assoc_spec p s t v d HI Ht2 Ht1) as (q & A1 & A2 & A3 & A4).
      destruct (push_error p s t (len d)) as [e'|]; destruct A4 as [E A4]; rewrite E in H;
      cbn [obind] in H; [|discriminate]. injection H as -> ->. repeat split; auto; apply A4. }
  destruct G as [HI' HD]. split.
  - rewrite (Inv_holds p s HI). apply (Inv_holds p' s HI').
  - eapply Inv_same_answers; eauto.
Qed.

(** C03, C04 *)
Definition lay_of (s : list (nat * bytes)) : list (nat * nat) :=
  rev (map (fun x => (fst x, len (snd x))) s).

Lemma lay_of_cons st c s : lay_of ((st, c) :: s) = lay_of s ++ [(st, len c)].
Proof. reflexivity. Qed.
Lemma lay_of_length s : List.length (lay_of s) = List.length s.
Proof. unfold lay_of. rewrite rev_length, map_length. reflexivity. Qed.
Lemma lay_end_of s : lay_end (lay_of s) = used s.
Proof.
  destruct s as [|[st c] s]; [reflexivity|]. unfold lay_end. rewrite lay_of_cons, rev_app_distr. reflexivity.
Qed.

Lemma layout_ranges dsc dat s i st n :
  layout dsc dat s -> nth_error (lay_of s) i = Some (st, n) ->
  st + n <= used s /\ exists c, slice dat st (st + n) = Some c /\ nth_error (strings s) i = Some c.
Proof.
  induction s as [|[st' c'] s IH]; intros Hl Hi; [destruct i; discriminate|].
  cbn [layout] in Hl. destruct Hl as (L1 & L2 & L3 & L4 & L5 & L6).
  rewrite lay_of_cons in Hi. rewrite strings_cons. cbn [used].
  destruct (Nat.lt_ge_cases i (List.length s)) as [H|H].
  - rewrite nth_error_app1 in Hi by (rewrite lay_of_length; lia).
    rewrite nth_error_app1 by (rewrite strings_length; lia).
    destruct (IH L6 Hi) as [H1 H2]. split; [lia|exact H2].
  - rewrite nth_error_app2 in Hi by (rewrite lay_of_length; lia).
    rewrite nth_error_app2 by (rewrite strings_length; lia).
    rewrite lay_of_length in Hi. rewrite strings_length.
    destruct (i - List.length s) as [|k]; cbn in Hi; [|destruct k; discriminate].
    injection Hi as <- <-. split; [lia|]. exists c'. auto.
Qed.

Lemma layout_disjoint dsc dat s i j st n st' n' :
  layout dsc dat s -> i < j -> nth_error (lay_of s) i = Some (st, n) ->
  nth_error (lay_of s) j = Some (st', n') -> st + n <= st'.
Proof.
  revert i j. induction s as [|[st0 c0] s IH]; intros i j Hl Hij Hi Hj; [destruct i; discriminate|].
  cbn [layout] in Hl. destruct Hl as (L1 & L2 & L3 & L4 & L5 & L6).
  rewrite lay_of_cons in *.
  assert (i < List.length s).
  { assert (j < List.length (lay_of s ++ [(st0, len c0)])) by (apply nth_error_Some; congruence).
    rewrite app_length, lay_of_length in *. cbn in *. lia. }
  rewrite nth_error_app1 in Hi by (rewrite lay_of_length; lia).
  destruct (Nat.lt_ge_cases j (List.length s)) as [H'|H'].
  - rewrite nth_error_app1 in Hj by (rewrite lay_of_length; lia).
    exact (IH i j L6 Hij Hi Hj).
  - rewrite nth_error_app2 in Hj by (rewrite lay_of_length; lia).
    rewrite lay_of_length in Hj.
    destruct (j - List.length s) as [|k]; cbn in Hj; [|destruct k; discriminate].
    injection Hj as <- <-. destruct (layout_ranges _ _ _ _ _ _ L6 Hi) as [? _]. lia.
Qed.

Lemma Inv_occupies p s : Inv p s -> occupies p (lay_of s).
Proof.
  intros HI. pose proof HI as (Hc & _ & Hl). repeat split.
  - rewrite lay_of_length. unfold pool_len. auto.
  - destruct (layout_ranges _ _ _ _ _ _ Hl H) as [H1 _]. pose proof (layout_used _ _ _ Hl). lia.
  - destruct (layout_ranges _ _ _ _ _ _ Hl H) as (_ & c & H1 & H2).
    exists c. split; [exact H1|]. rewrite (get_spec p s) by exact HI. congruence.
  - intros. eapply layout_disjoint; eauto.
Qed.

Lemma reachable_occupies p : reachable p -> exists lay, occupies p lay.
Proof. intros H. destruct (reachable_Inv p H) as [s HI]. exists (lay_of s). apply Inv_occupies. exact HI. Qed.

(** [occupies] fixes the end of the used area up to empty items; the pool's own layout is the witness. *)
Lemma new_dims checks buffer lim p :
  pool_new checks buffer lim = Done (Ok p) -> (lim * 4 + 1 < usize_modulus)%N ->
  N.of_nat (List.length (descriptor p)) = (lim * 4)%N /\
  len (data p) = len buffer - N.to_nat (lim * 4) /\ max_slices p = lim.
Proof.
  unfold pool_new, usize_op. intros H Hlim.
  destruct (lim =? 0)%N; [discriminate|]. destruct (len buffer =? 0); [discriminate|].
  destruct (N.ltb_spec (lim * 4) usize_modulus); [|lia]. cbn [obind] in H.
  destruct (N.ltb_spec (lim * 4 + 1) usize_modulus); [|lia]. cbn [obind] in H.
  destruct (N.ltb_spec (N.of_nat (len buffer)) (lim * 4 + 1)) as [?|Hb]; [discriminate|].
  destruct (N.ltb_spec (N.of_nat (len buffer)) (lim * 4)) as [?|Hb2]; [discriminate|].
  injection H as <-. cbn [descriptor data max_slices].
  rewrite firstn_length, skipn_length. lia.
Qed.

Lemma push_verdict_error p s n :
  Inv p s -> (4 * max_slices p <= N.of_nat (List.length (descriptor p)))%N ->
  push_error p s unit_ty n = push_verdict (max_slices p) (pool_len p) (len (data p)) (used s) n.
Proof.
  intros (Hc & _ & Hl) Hd. unfold push_error, push_verdict, pool_len. rewrite Hc.
  cbn [unit_ty t_align t_size]. rewrite next_multiple_1, Nat.sub_diag, !Nat.add_0_r. cbn [plus].
  pose proof (layout_used _ _ _ Hl) as Hu.
  destruct (N.leb_spec (max_slices p) (N.of_nat (List.length s))); [reflexivity|].
  destruct (Nat.ltb_spec (len (data p)) (used s + n)); destruct (Nat.ltb_spec (len (data p) - used s) n);
    try lia; [reflexivity|].
  destruct (N.ltb_spec 65535 (N.of_nat (used s))); [reflexivity|].
  destruct (N.ltb_spec 65535 (N.of_nat n)); [reflexivity|].
  destruct (Nat.ltb_spec (len (descriptor p)) (List.length s * 4 + 4)); [lia|reflexivity].
Qed.

Definition verdict_answer (v : option perror) (d : bytes) : answer :=
  match v with None => ABytesRes (Ok d) | Some e => ABytesRes (Err e) end.

Lemma push_succeeds_exactly checks buffer lim p0 ops p answers d :
  pool_new checks buffer lim = Done (Ok p0) -> (lim * 4 + 1 < usize_modulus)%N ->
  Forall op_typed ops -> run p0 ops = Done (p, answers) ->
  exists lay p', occupies p lay /\
    step p (OPush d) =
      Done (p', verdict_answer
                  (push_verdict lim (pool_len p) (len buffer - N.to_nat (lim * 4)) (lay_end lay) (len d)) d).
Proof.
  intros Hn Hlim Ht Hr. destruct (new_dims _ _ _ _ Hn Hlim) as (D1 & D2 & D3).
  destruct (Inv_new _ _ _ _ Hn) as [HI0 _].
  destruct (run_refines ops p0 [] HI0 Ht) as (p1 & l & s & E & HI & _ & M & DD & DL).
  rewrite E in Hr. injection Hr as -> ->.
  destruct (push_spec p s d HI) as (p' & _ & _ & _ & H).
  exists (lay_of s), p'. split; [apply Inv_occupies; exact HI|].
  rewrite lay_end_of, <- D2, <- DL, <- D3, <- M.
  rewrite <- push_verdict_error; [|exact HI|].
  2:{ rewrite M, D3, DD. lia. }
  cbn [step]. destruct (push_error p s unit_ty (len d)); destruct H as [-> _]; reflexivity.
Qed.

(** Plain histories: no gaps, so the used area is the sum of the lengths. *)
Definition tight (s : list (nat * bytes)) : Prop := used s = total_length (strings s) /\
  forall k, used (skipn k s) = total_length (strings (skipn k s)).

Lemma total_length_snoc l c : total_length (l ++ [c]) = total_length l + len c.
Proof.
  unfold total_length. rewrite map_app. cbn [map].
  rewrite list_sum_app. cbn [list_sum fold_right]. rewrite Nat.add_0_r. reflexivity.
Qed.

Lemma tight_cons c s : tight s -> tight ((used s, c) :: s).
Proof.
  intros [H1 H2].
  assert (E : used ((used s, c) :: s) = total_length (strings ((used s, c) :: s))).
  { rewrite strings_cons, total_length_snoc, <- H1. reflexivity. }
  split; [exact E|].
  intros [|k]; [exact E|]. apply H2.
Qed.

Lemma tight_tl s : tight s -> tight (tl s).
Proof.
  intros [H1 H2]. destruct s as [|x s]; [split; auto|]. cbn [tl].
  split; [apply (H2 1)|]. intros k. apply (H2 (S k)).
Qed.

Lemma step_tight p s o :
  Inv p s -> plain_op o = true -> tight s ->
  exists p' a s', step p o = Done (p', a) /\ Inv p' s' /\ tight s' /\
    max_slices p' = max_slices p /\ List.length (descriptor p') = List.length (descriptor p) /\
    len (data p') = len (data p).
Proof.
  intros HI Hp Ht. destruct o; cbn [plain_op] in Hp; try discriminate; cbn [step].
  - destruct (push_spec p s d HI) as (p' & H1 & H2 & H3 & H4).
    destruct (push_error p s unit_ty (len d)) as [e|]; destruct H4 as [-> H5]; cbn [obind].
    + eexists p', _, s. split; [reflexivity|]. auto.
    + eexists p', _, _. split; [reflexivity|]. split; [exact H5|]. split; [|auto]. apply tight_cons. exact Ht.
  - destruct (pop_spec p s HI) as (p' & -> & H1 & H2 & H3 & H4). cbn [obind].
    eexists p', _, (tl s). split; [reflexivity|]. rewrite H3, H4. split; [exact H1|].
    split; [|auto]. apply tight_tl; auto.
  - eexists _, _, []. split; [reflexivity|]. split; [unfold Inv; cbn; repeat split; lia|].
    split; [|auto]. split; [reflexivity|]. intros [|k]; reflexivity.
  - eexists p, _, s. split; [reflexivity|]. auto.
  - eexists p, _, s. split; [reflexivity|]. auto.
  - rewrite (get_spec p s) by exact HI. eexists p, _, s. split; [reflexivity|]. auto.
  - rewrite (top_spec p s) by exact HI. eexists p, _, s. split; [reflexivity|]. auto.
Qed.

Lemma run_tight ops : forall p s,
  Inv p s -> forallb plain_op ops = true -> tight s ->
  exists p' l s', run p ops = Done (p', l) /\ Inv p' s' /\ tight s' /\
    max_slices p' = max_slices p /\ List.length (descriptor p') = List.length (descriptor p) /\
    len (data p') = len (data p).
Proof.
  induction ops as [|o ops IH]; intros p s HI Hp Ht.
  - exists p, [], s. cbn [run]. auto 10.
  - cbn [forallb] in Hp. apply andb_prop in Hp. destruct Hp as [Ho Hp].
    destruct (step_tight p s o HI Ho Ht) as (p1 & a & s1 & E1 & I1 & T1 & M1 & D1 & L1).
    destruct (IH p1 s1 I1 Hp T1) as (p2 & l & s2 & E2 & I2 & T2 & M2 & D2 & L2).
    exists p2, (a :: l), s2. cbn [run]. rewrite E1. cbn [obind]. rewrite E2. cbn [obind].
    repeat split; auto; try apply I2; try apply T2; congruence.
Qed.

Lemma plain_push_succeeds_exactly checks buffer lim p0 ops p answers d :
  pool_new checks buffer lim = Done (Ok p0) -> (lim * 4 + 1 < usize_modulus)%N ->
  forallb plain_op ops = true -> run p0 ops = Done (p, answers) ->
  exists s p', holds p s /\
    step p (OPush d) =
      Done (p', verdict_answer
                  (push_verdict lim (List.length s) (len buffer - N.to_nat (lim * 4)) (total_length s) (len d)) d).
Proof.
  intros Hn Hlim Ht Hr. destruct (new_dims _ _ _ _ Hn Hlim) as (D1 & D2 & D3).
  destruct (Inv_new _ _ _ _ Hn) as [HI0 _].
  destruct (run_tight ops p0 [] HI0 Ht) as (p1 & l & s & E & HI & T & M & DD & DL).
  { split; [reflexivity|]. intros [|k]; reflexivity. }
  rewrite E in Hr. injection Hr as -> ->.
  destruct (push_spec p s d HI) as (p' & _ & _ & _ & H).
  exists (strings s), p'. split; [apply Inv_holds; exact HI|].
  destruct T as [T _].
  rewrite strings_length, <- T, <- D2, <- DL, <- D3, <- M.
  assert (pool_len p = List.length s) as HL by (unfold pool_len; apply HI).
  rewrite <- HL, <- push_verdict_error; [|exact HI|].
  2:{ rewrite M, D3, DD. lia. }
  cbn [step]. destruct (push_error p s unit_ty (len d)); destruct H as [-> _]; reflexivity.
Qed.

(** C05 *)
Lemma firstn_app_exact {A} (v d : list A) n : List.length v = n -> firstn n (v ++ d) = v.
Proof. intros <-. rewrite firstn_app, firstn_all, Nat.sub_diag. apply app_nil_r. Qed.
Lemma skipn_app_exact {A} (v d : list A) n : List.length v = n -> skipn n (v ++ d) = d.
Proof. intros <-. rewrite skipn_app, skipn_all, Nat.sub_diag. reflexivity. Qed.

Lemma split_value_app t v d : len v = t_size t -> split_value (t_size t) (v ++ d) = Some (v, d).
Proof.
  intros H. unfold split_value. rewrite app_length.
  destruct (Nat.leb_spec (t_size t) (len v + len d)); [|lia].
  rewrite firstn_app_exact, skipn_app_exact by exact H. reflexivity.
Qed.

Lemma assoc_round_trip p t v d p1 r :
  reachable p -> len v = t_size t -> 0 < t_align t ->
  push_assoc p t v d = Done (p1, Ok r) ->
  r = (v, d) /\
  pool_len p1 = pool_len p + 1 /\
  get_assoc p1 t (pool_len p) = Done (Some (v, d)) /\
  top_assoc p1 t = Done (Some (v, d)) /\
  top_assoc_obj p1 t = Done (Some v) /\
  top_assoc_bytes p1 t = Done (Some d) /\
  (exists p2, pop_assoc p1 t = Done (p2, Some (v, d)) /\ contents p2 = contents p) /\
  firstn (pool_len p) (contents p1) = contents p.
Proof.
  intros Hr Hv Ha Hp. destruct (reachable_Inv p Hr) as [s HI].
  destruct (push_assoc_spec p s t v d HI Ha Hv) as (p' & _ & _ & _ & H).
  destruct (push_error p s t (len d)); destruct H as [E HI']; rewrite E in Hp; [discriminate|].
  injection Hp as -> <-. set (st := next_multiple_of _ _) in HI'.
  assert (HL : pool_len p = List.length s) by (unfold pool_len; apply HI).
  assert (HS := split_value_app t v d Hv).
  split; [reflexivity|]. split.
  { unfold pool_len in *. destruct HI' as (-> & _). cbn [List.length]. lia. }
  rewrite (get_assoc_spec _ _ _ _ HI'), (top_assoc_spec _ _ _ HI'),
    (top_assoc_obj_spec _ _ _ HI'), (top_assoc_bytes_spec _ _ _ HI').
  rewrite strings_cons, last_opt_snoc. cbn [obind_opt]. rewrite HS.
  rewrite nth_error_app2; rewrite strings_length; [|lia].
  rewrite HL, Nat.sub_diag. cbn [nth_error obind_opt]. rewrite HS.
  repeat split.
  - pose proof (pop_assoc_spec p1 _ t HI') as HP. rewrite strings_cons, last_opt_snoc in HP.
    cbn [obind_opt] in HP. rewrite HS in HP. destruct HP as (HP & HI2 & _). cbn [tl] in HI2.
    eexists. split; [exact HP|]. rewrite (Inv_holds _ _ HI2), (Inv_holds _ _ HI). reflexivity.
  - rewrite (Inv_holds _ _ HI'), (Inv_holds _ _ HI), strings_cons, map_app.
    apply firstn_app_exact. rewrite map_length, strings_length. reflexivity.
Qed.

Lemma removelast_nth {A} (l : list A) n : n + 1 < List.length l -> nth_error (removelast l) n = nth_error l n.
Proof.
  destruct l as [|x l] using rev_ind; [cbn; lia|]. rewrite app_length. cbn [List.length]. intros H.
  rewrite removelast_last, nth_error_app1 by lia. reflexivity.
Qed.

Lemma stack_step_keeps s o a s' n :
  stack_step s o a s' -> n < List.length s -> n < List.length s' ->
  (forall t d, o = OReplace t d -> n + 1 < List.length s) ->
  nth_error s' n = nth_error s n.
Proof.
  assert (RL : forall l : list bytes, List.length (removelast l) = List.length l - 1).
  { intros l. destruct l as [|x l] using rev_ind; [reflexivity|]. rewrite removelast_last, app_length. cbn. lia. }
  intros H Hn Hn' Hrep. destruct H; auto; try (rewrite nth_error_app1 by lia; reflexivity);
    try (rewrite RL in Hn'; apply removelast_nth; lia).
  - cbn in Hn'. lia.
  - specialize (Hrep t d eq_refl).
    rewrite nth_error_app1 by (rewrite RL; lia). apply removelast_nth. lia.
  - specialize (Hrep t d eq_refl).
    rewrite nth_error_app1 by (rewrite RL; lia). apply removelast_nth. lia.
Qed.

Lemma stays_above_keeps n p ops p' s :
  Inv p s -> stays_above n p ops p' ->
  exists s', Inv p' s' /\ nth_error (strings s') n = nth_error (strings s) n.
Proof.
  intros HI H. revert s HI. induction H as [p Hn|p o p1 a os p2 Hn Hs Ht Hrep Hsa IH]; intros s HI.
  - exists s. auto.
  - destruct (step_refines p s o HI Ht) as (p1' & a' & s1 & E & I1 & S1 & _).
    rewrite Hs in E. injection E as <- <-.
    destruct (IH s1 I1) as (s' & I' & E').
    exists s'. split; [exact I'|]. rewrite E'.
    assert (L0 : pool_len p = List.length s) by (unfold pool_len; apply HI).
    assert (L1 : pool_len p1 = List.length s1) by (unfold pool_len; apply I1).
    assert (n < pool_len p1) by (inversion Hsa; assumption).
    eapply stack_step_keeps; eauto; rewrite ?strings_length; try lia.
    intros t d Ho. specialize (Hrep t d Ho). lia.
Qed.

Lemma reachable_step p o p' a : reachable p -> op_typed o -> step p o = Done (p', a) -> reachable p'.
Proof.
  intros (checks & buffer & lim & p0 & ops & answers & Hn & Ht & Hr) Ho Hs.
  exists checks, buffer, lim, p0, (ops ++ [o]), (answers ++ [a]).
  split; [exact Hn|]. split; [apply Forall_app; auto|].
  clear Hn Ht. revert p0 answers Hr. induction ops as [|x ops IH]; intros p0 answers Hr; cbn [run app] in *.
  - injection Hr as -> <-. rewrite Hs. reflexivity.
  - destruct (step p0 x) as [[p1 b]| |]; try discriminate. cbn [obind] in *.
    destruct (run p1 ops) as [[p2 l]| |] eqn:E; try discriminate. cbn [obind] in Hr.
    injection Hr as -> <-. rewrite (IH p1 l E). reflexivity.
Qed.

Lemma assoc_survives p t v d p1 r ops p2 :
  reachable p -> len v = t_size t -> 0 < t_align t ->
  push_assoc p t v d = Done (p1, Ok r) ->
  stays_above (pool_len p) p1 ops p2 ->
  get_assoc p2 t (pool_len p) = Done (Some (v, d)).
Proof.
  intros Hr Hv Ha Hp Hsa. destruct (reachable_Inv p Hr) as [s HI].
  destruct (push_assoc_spec p s t v d HI Ha Hv) as (p' & _ & _ & _ & H).
  destruct (push_error p s t (len d)); destruct H as [E HI']; rewrite E in Hp; [discriminate|].
  injection Hp as -> <-.
  destruct (stays_above_keeps _ _ _ _ _ HI' Hsa) as (s2 & I2 & E2).
  rewrite (get_assoc_spec _ _ _ _ I2), E2, strings_cons.
  assert (HL : pool_len p = List.length s) by (unfold pool_len; apply HI).
  rewrite nth_error_app2; rewrite strings_length; [|lia].
  rewrite HL, Nat.sub_diag. cbn [nth_error obind_opt]. rewrite split_value_app by exact Hv. reflexivity.
Qed.

(** C06 *)
Lemma assoc_start_aligned p t v d p1 r :
  reachable p -> len v = t_size t -> 0 < t_align t ->
  push_assoc p t v d = Done (p1, Ok r) ->
  exists st c, slice (data p1) st (st + t_size t) = Some v /\ occupies p1 (c ++ [(st, t_size t + len d)]) /\
    (exists k, st = k * t_align t).
Proof.
  intros Hr Hv Ha Hp. destruct (reachable_Inv p Hr) as [s HI].
  destruct (push_assoc_spec p s t v d HI Ha Hv) as (p' & _ & _ & _ & H).
  destruct (push_error p s t (len d)); destruct H as [E HI']; rewrite E in Hp; [discriminate|].
  injection Hp as -> <-. set (st := next_multiple_of _ _) in HI'.
  exists st, (lay_of s). split; [|split].
  - destruct HI' as (_ & _ & L). cbn [layout] in L. destruct L as (_ & _ & L & _).
    destruct (slice_split (data p1) st _ (v ++ d) (t_size t) L eq_refl) as [A _].
    { rewrite app_length. lia. }
    rewrite firstn_app_exact in A by exact Hv. exact A.
  - rewrite <- Hv, <- app_length, <- lay_of_cons. apply Inv_occupies. exact HI'.
  - apply next_multiple_least. exact Ha.
Qed.

Lemma assoc_aligned_if_base_aligned base p t v d p1 r :
  reachable p -> len v = t_size t -> 0 < t_align t ->
  (data_address base p 0 mod N.of_nat (t_align t) = 0)%N ->
  push_assoc p t v d = Done (p1, Ok r) ->
  exists st lay, slice (data p1) st (st + t_size t) = Some v /\
    occupies p1 (lay ++ [(st, t_size t + len d)]) /\
    (data_address base p1 st mod N.of_nat (t_align t) = 0)%N.
Proof.
  intros Hr Hv Ha Hb Hp.
  destruct (assoc_start_aligned p t v d p1 r Hr Hv Ha Hp) as (st & c & H1 & H2 & k & H3).
  exists st, c. split; [exact H1|]. split; [exact H2|].
  assert (List.length (descriptor p1) = List.length (descriptor p)) as HD.
  { destruct (reachable_Inv p Hr) as [s HI].
    destruct (push_assoc_spec p s t v d HI Ha Hv) as (p' & _ & HD & _ & H).
    destruct (push_error p s t (len d)); destruct H as [E HI']; rewrite E in Hp; [discriminate|].
    injection Hp as -> <-. exact HD. }
  unfold data_address in *. rewrite HD. rewrite N.add_0_r in Hb.
  rewrite N.add_mod, Hb by lia. rewrite H3, Nat2N.inj_mul, N.mod_mul by lia. rewrite N.add_0_l. apply N.mod_0_l. lia.
Qed.

(** C07 *)
Lemma replace_success p t d p1 r s :
  reachable p -> holds p s ->
  replace_top_assoc_bytes p t d = Done (p1, Ok r) ->
  r = d /\ exists below v old,
    s = below ++ [v ++ old] /\ len v = t_size t /\ holds p1 (below ++ [v ++ d]) /\
    top_assoc p1 t = Done (Some (v, d)).
Proof.
  intros Hr Hh Hp. destruct (reachable_Inv p Hr) as [s0 HI].
  assert (s = strings s0) as -> by (eapply holds_inj; eauto; apply Inv_holds; exact HI).
  destruct (replace_spec p s0 t d HI) as (p' & _ & _ & _ & H).
  destruct (replace_error p s0 t (len d)) as [e|].
  { destruct e; try (rewrite H in Hp; discriminate). destruct H as [H _]. rewrite H in Hp. discriminate. }
  destruct H as [E H]. rewrite E in Hp. injection Hp as -> <-.
  destruct s0 as [|[st c] s0]; [contradiction|]. destruct H as [Hs HI'].
  split; [reflexivity|].
  exists (strings s0), (firstn (t_size t) c), (skipn (t_size t) c).
  rewrite firstn_skipn, firstn_length. split; [reflexivity|]. split; [lia|]. split.
  - apply (Inv_holds _ _ HI').
  - rewrite (top_assoc_spec _ _ _ HI'), strings_cons, last_opt_snoc. cbn [obind_opt].
    rewrite split_value_app; [reflexivity|]. rewrite firstn_length. lia.
Qed.

Lemma replace_error_unchanged p t d p1 e :
  reachable p -> (N.of_nat (t_size t + len d) <= 65535)%N ->
  replace_top_assoc_bytes p t d = Done (p1, Err e) -> p1 = p.
Proof.
  intros Hr Hb Hp. destruct (reachable_Inv p Hr) as [s0 HI].
  destruct (replace_spec p s0 t d HI) as (p' & _ & _ & _ & H).
  destruct (replace_error p s0 t (len d)) as [e'|].
  { destruct e'; try (rewrite H in Hp; injection Hp as -> _; reflexivity).
    destruct H as (_ & H & _). lia. }
  destruct H as [H _]. rewrite H in Hp. discriminate.
Qed.

(** C08 *)
Lemma iter_next_spec p s k :
  Inv p s ->
  iter_next p (mkFwd k (pool_len p)) =
    (nth_error (strings s) k, mkFwd (if k <? pool_len p then k + 1 else k) (pool_len p)).
Proof.
  intros (Hc & _ & Hl). unfold iter_next, desc_iter_next, pool_len. cbn [f_current f_count]. rewrite Hc.
  destruct (Nat.ltb_spec k (List.length s)) as [H|H].
  - destruct (layout_nth _ _ _ _ Hl H) as (st & c & H1 & H2 & H3 & _).
    rewrite H2, H3, H1. reflexivity.
  - replace (nth_error (strings s) k) with (@None bytes); [reflexivity|].
    symmetry. apply nth_error_None. rewrite strings_length. exact H.
Qed.

Lemma iterate_S {A} (f : A -> A) k x : iterate f (S k) x = f (iterate f k x).
Proof. revert x. induction k as [|k IH]; intros x; [reflexivity|]. cbn [iterate] in *. apply IH. Qed.

Lemma iter_state p s k :
  Inv p s -> iterate (fun it => snd (iter_next p it)) k (iter_start p) = mkFwd (Nat.min k (pool_len p)) (pool_len p).
Proof.
  intros HI. induction k as [|k IH]; [reflexivity|].
  rewrite iterate_S, IH, (iter_next_spec p s) by exact HI. cbn [snd]. f_equal.
  destruct (Nat.ltb_spec (Nat.min k (pool_len p)) (pool_len p)); lia.
Qed.

Lemma iter_agrees p k s :
  reachable p -> holds p s ->
  let it := iterate (fun it => snd (iter_next p it)) k (iter_start p) in
  fst (iter_next p it) = nth_error s k /\ fwd_size it = List.length s - k.
Proof.
  intros Hr Hh. destruct (reachable_Inv p Hr) as [s0 HI].
  assert (s = strings s0) as -> by (eapply holds_inj; eauto; apply Inv_holds; exact HI).
  cbn zeta. rewrite (iter_state p s0 k HI), (iter_next_spec p s0) by exact HI. cbn [fst].
  assert (HL : pool_len p = List.length s0) by (unfold pool_len; apply HI).
  unfold fwd_size. cbn [f_current f_count]. rewrite strings_length, HL. split; [|lia].
  destruct (Nat.le_ge_cases k (List.length s0)).
  - rewrite Nat.min_l by lia. reflexivity.
  - rewrite Nat.min_r by lia. transitivity (@None bytes); [|symmetry]; apply nth_error_None; rewrite strings_length; lia.
Qed.

Lemma rev_next_spec p s k :
  Inv p s -> k <= pool_len p ->
  rev_next p k = (match k with 0 => None | S j => nth_error (strings s) j end, k - 1).
Proof.
  intros (Hc & _ & Hl) Hk. unfold pool_len in Hk. rewrite Hc in Hk.
  unfold rev_next, desc_rev_next. destruct k as [|j]; [reflexivity|].
  destruct (layout_nth _ _ _ j Hl ltac:(lia)) as (st & c & H1 & H2 & H3 & _).
  rewrite H2, H3, H1. f_equal. lia.
Qed.

Lemma rev_state p s k :
  Inv p s -> iterate (fun it => snd (rev_next p it)) k (rev_start p) = pool_len p - k.
Proof.
  intros HI. induction k as [|k IH]; [unfold rev_start, pool_len; cbn; lia|].
  rewrite iterate_S, IH, (rev_next_spec p s) by (auto; lia). cbn [snd]. lia.
Qed.

Lemma nth_error_rev {A} (l : list A) k :
  nth_error (rev l) k = match List.length l - k with 0 => None | S j => nth_error l j end.
Proof.
  destruct (Nat.lt_ge_cases k (List.length l)) as [H|H].
  - destruct (List.length l - k) as [|j] eqn:E; [lia|].
    destruct (nth_error l j) as [x|] eqn:Ej.
    2:{ apply nth_error_None in Ej. lia. }
    rewrite (nth_error_nth' (rev l) x) by (rewrite rev_length; lia).
    rewrite rev_nth by lia. f_equal. replace (List.length l - S k) with j by lia.
    apply nth_error_nth. exact Ej.
  - replace (List.length l - k) with 0 by lia. apply nth_error_None. rewrite rev_length. lia.
Qed.

Lemma rev_iter_agrees p k s :
  reachable p -> holds p s ->
  let it := iterate (fun it => snd (rev_next p it)) k (rev_start p) in
  fst (rev_next p it) = nth_error (rev s) k /\ it = List.length s - k.
Proof.
  intros Hr Hh. destruct (reachable_Inv p Hr) as [s0 HI].
  assert (s = strings s0) as -> by (eapply holds_inj; eauto; apply Inv_holds; exact HI).
  cbn zeta. rewrite (rev_state p s0 k HI), (rev_next_spec p s0) by (auto; lia). cbn [fst].
  assert (HL : pool_len p = List.length s0) by (unfold pool_len; apply HI).
  rewrite nth_error_rev, strings_length, HL. split; reflexivity.
Qed.

Lemma pair_next_spec p s k :
  Inv p s ->
  pair_next p (mkFwd k (pool_len p)) =
    (match nth_error (strings s) k, nth_error (strings s) (k + 1) with
     | Some a, Some b => Some (a, b) | _, _ => None end,
     mkFwd (if k + 1 <? pool_len p then k + 2 else Nat.max k (pool_len p)) (pool_len p)).
Proof.
  intros HI. unfold pair_next. rewrite (iter_next_spec p s) by exact HI.
  assert (HL : pool_len p = List.length (strings s)) by (rewrite strings_length; unfold pool_len; apply HI).
  destruct (Nat.ltb_spec k (pool_len p)) as [H|H].
  - destruct (nth_error (strings s) k) eqn:E; [|apply nth_error_None in E; lia].
    rewrite (iter_next_spec p s) by exact HI.
    destruct (Nat.ltb_spec (k + 1) (pool_len p)) as [H'|H'].
    + destruct (nth_error (strings s) (k + 1)) eqn:E'; [|apply nth_error_None in E'; lia].
      f_equal. f_equal. lia.
    + destruct (nth_error (strings s) (k + 1)) eqn:E'.
      { assert (k + 1 < List.length (strings s)) by (apply nth_error_Some; congruence). lia. }
      f_equal. f_equal. lia.
  - destruct (nth_error (strings s) k) eqn:E.
    { assert (k < List.length (strings s)) by (apply nth_error_Some; congruence). lia. }
    destruct (Nat.ltb_spec (k + 1) (pool_len p)); [lia|]. f_equal. f_equal. lia.
Qed.

Lemma pair_iter_agrees p k s :
  reachable p -> holds p s ->
  let it := iterate (fun it => snd (pair_next p it)) k (iter_start p) in
  fst (pair_next p it) = nth_pair s k /\ pair_size it = List.length s / 2 - k.
Proof.
  intros Hr Hh. destruct (reachable_Inv p Hr) as [s0 HI].
  assert (s = strings s0) as -> by (eapply holds_inj; eauto; apply Inv_holds; exact HI).
  assert (HL : pool_len p = List.length (strings s0)) by (rewrite strings_length; unfold pool_len; apply HI).
  assert (HS : iterate (fun it => snd (pair_next p it)) k (iter_start p)
             = mkFwd (Nat.min (2 * k) (pool_len p)) (pool_len p)).
  { induction k as [|k IH]; [reflexivity|].
    rewrite iterate_S, IH, (pair_next_spec p s0) by exact HI. cbn [snd]. f_equal.
    destruct (Nat.ltb_spec (Nat.min (2 * k) (pool_len p) + 1) (pool_len p)); lia. }
  cbn zeta. rewrite HS, (pair_next_spec p s0) by exact HI. cbn [fst].
  unfold pair_size, fwd_size, nth_pair. cbn [f_current f_count]. rewrite <- HL. split.
  - destruct (Nat.le_ge_cases (2 * k) (pool_len p)).
    + rewrite Nat.min_l by lia. reflexivity.
    + rewrite Nat.min_r by lia.
      assert (E : nth_error (strings s0) (pool_len p) = None) by (apply nth_error_None; lia).
      assert (E' : nth_error (strings s0) (2 * k) = None) by (apply nth_error_None; lia).
      rewrite E, E'. reflexivity.
  - destruct (Nat.le_ge_cases (2 * k) (pool_len p)).
    + rewrite Nat.min_l by lia.
      rewrite (Nat.div_mod (pool_len p) 2) at 1 by lia.
      replace (2 * (pool_len p / 2) + pool_len p mod 2 - 2 * k)
        with (pool_len p mod 2 + (pool_len p / 2 - k) * 2).
      2:{ pose proof (Nat.div_mod (pool_len p) 2 ltac:(lia)). pose proof (Nat.mod_upper_bound (pool_len p) 2 ltac:(lia)). lia. }
      rewrite Nat.div_add by lia. rewrite (Nat.div_small (pool_len p mod 2)) by (apply Nat.mod_upper_bound; lia). lia.
    + rewrite Nat.min_r, Nat.sub_diag by lia. change (0 / 2) with 0.
      assert (pool_len p / 2 <= k) by (apply Nat.div_le_upper_bound; lia). lia.
Qed.

Lemma assoc_iter_agrees p t k s :
  reachable p -> holds p s ->
  let it := iterate (fun it => snd (assoc_next p t it)) k 0 in
  fst (assoc_next p t it) = Done (obind_opt (nth_error s k) (split_value (t_size t))) /\
  assoc_size p it = List.length s - k.
Proof.
  intros Hr Hh. destruct (reachable_Inv p Hr) as [s0 HI].
  assert (s = strings s0) as -> by (eapply holds_inj; eauto; apply Inv_holds; exact HI).
  assert (HL : pool_len p = List.length (strings s0)) by (rewrite strings_length; unfold pool_len; apply HI).
  assert (HS : iterate (fun it => snd (assoc_next p t it)) k 0 = k).
  { induction k as [|k IH]; [reflexivity|]. rewrite iterate_S, IH. cbn. lia. }
  cbn zeta. rewrite HS. cbn [assoc_next fst]. unfold assoc_size. rewrite HL.
  rewrite (get_assoc_spec p s0) by exact HI. auto.
Qed.

Lemma assoc_rev_iter_agrees p t k s :
  reachable p -> holds p s ->
  let it := iterate (fun it => snd (assoc_rev_next p t it)) k (assoc_rev_start p) in
  fst (assoc_rev_next p t it) = Done (obind_opt (nth_error (rev s) k) (split_value (t_size t))) /\
  assoc_rev_size it = List.length s - k.
Proof.
  intros Hr Hh. destruct (reachable_Inv p Hr) as [s0 HI].
  assert (s = strings s0) as -> by (eapply holds_inj; eauto; apply Inv_holds; exact HI).
  assert (HL : pool_len p = List.length (strings s0)) by (rewrite strings_length; unfold pool_len; apply HI).
  assert (HS : iterate (fun it => snd (assoc_rev_next p t it)) k (assoc_rev_start p) = pool_len p - k).
  { induction k as [|k IH]; [unfold assoc_rev_start; cbn; lia|]. rewrite iterate_S, IH.
    unfold assoc_rev_next. destruct (pool_len p - k) eqn:E; cbn [snd]; lia. }
  cbn zeta. rewrite HS. unfold assoc_rev_size. split; [|lia].
  rewrite nth_error_rev, <- HL. unfold assoc_rev_next.
  destruct (pool_len p - k) as [|j]; cbn [fst]; [reflexivity|].
  rewrite (get_assoc_spec p s0) by exact HI. reflexivity.
Qed.

(** C09 *)
Lemma new_exact checks buffer lim :
  (lim * 4 + 1 < usize_modulus)%N ->
  (forall e, pool_new checks buffer lim = Done (Err e) -> exists r, e = InvalidInitialization r) /\
  ((exists r, pool_new checks buffer lim = Done r)) /\
  ((exists p, pool_new checks buffer lim = Done (Ok p)) <->
   (0 < lim)%N /\ (4 * lim + 1 <= N.of_nat (len buffer))%N).
Proof.
  intros Hlim. unfold pool_new, usize_op.
  destruct (N.eqb_spec lim 0) as [->|Hz].
  { split; [intros e H; injection H as <-; eauto|]. split; [eauto|].
    split; [intros [p H]; discriminate|lia]. }
  destruct (Nat.eqb_spec (len buffer) 0) as [Hb|Hb].
  { split; [intros e H; injection H as <-; eauto|]. split; [eauto|].
    split; [intros [p H]; discriminate|lia]. }
  destruct (N.ltb_spec (lim * 4) usize_modulus); [|lia]. cbn [obind].
  destruct (N.ltb_spec (lim * 4 + 1) usize_modulus); [|lia]. cbn [obind].
  destruct (N.ltb_spec (N.of_nat (len buffer)) (lim * 4 + 1)).
  { split; [intros e H2; injection H2 as <-; eauto|]. split; [eauto|].
    split; [intros [p H2]; discriminate|lia]. }
  destruct (N.ltb_spec (N.of_nat (len buffer)) (lim * 4)); [lia|].
  split; [discriminate|]. split; [eauto|]. split; [lia|eauto].
Qed.

(** Witness for C07: the error comes after the bytes were overwritten. *)
Lemma replace_error_aux buffer d :
  match pool_new true buffer 1 with
  | Done (Ok p0) =>
      match push_assoc p0 unit_ty [] (bs "a") with
      | Done (p1, Ok r) =>
          match replace_top_assoc_bytes p1 unit_ty d with
          | Done (p2, Err e) => Some (r, get p1 0, get p2 0)
          | _ => None
          end
      | _ => None
      end
  | _ => None
  end = Some (([], bs "a"), Done (Some (bs "a")), Done (Some (bs "b"))) ->
  exists buffer p0 p1 p2 d e,
    pool_new true buffer 1 = Done (Ok p0) /\
    push_assoc p0 unit_ty [] (bs "a") = Done (p1, Ok ([], bs "a")) /\
    get p1 0 = Done (Some (bs "a")) /\
    replace_top_assoc_bytes p1 unit_ty d = Done (p2, Err e) /\
    get p2 0 = Done (Some (bs "b")).
Proof.
  intros H.
  destruct (pool_new true buffer 1) as [[p0|]| |] eqn:E0; try discriminate.
  destruct (push_assoc p0 unit_ty [] (bs "a")) as [[p1 [r|]]| |] eqn:E1; try discriminate.
  destruct (replace_top_assoc_bytes p1 unit_ty d) as [[p2 [r2|e]]| |] eqn:E2; try discriminate.
  injection H as -> H1 H2.
  exists buffer, p0, p1, p2, d, e.
  split; [exact E0|]. split; [exact E1|]. split; [exact H1|]. split; [exact E2|exact H2].
Qed.

Lemma replace_error_clobbers :
  exists buffer p0 p1 p2 d e,
    pool_new true buffer 1 = Done (Ok p0) /\
    push_assoc p0 unit_ty [] (bs "a") = Done (p1, Ok ([], bs "a")) /\
    get p1 0 = Done (Some (bs "a")) /\
    replace_top_assoc_bytes p1 unit_ty d = Done (p2, Err e) /\
    get p2 0 = Done (Some (bs "b")).
Proof.
  apply (replace_error_aux (repeat 0%N (N.to_nat 66000)) (repeat 98%N (N.to_nat 65536))).
  vm_compute. reflexivity.
Qed.
