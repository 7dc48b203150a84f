(** Properties C01-C09 of the byte-slice pool. Only statements, examples and assumptions. *)
From Verif Require Import Base U8Pool PoolSpec PoolProofs.

(** A pool used in the examples: 60 zero bytes, 4 slices (16 bytes metadata, 44 bytes data). *)
Definition ex_buffer : bytes := repeat 0%N 60.
Definition ex_pool : pool :=
  match pool_new true ex_buffer 4 with Done (Ok p) => p | _ => mkPool 0 0 [] [] end.
Definition ex_ty : ty := mkTy 4 8.
Definition ex_ops : list op :=
  [OPush (bs "abc"); OPushAssoc ex_ty [1;2;3;4]%N (bs "key"); OGet 0; OPop; OTop; OPush (bs "");
   OPushAssoc ex_ty [9;9;9;9]%N (bs "k2"); OLen; OGetAssoc ex_ty 2].
Example ex_pool_ok : pool_new true ex_buffer 4 = Done (Ok ex_pool).
Proof. vm_compute. reflexivity. Qed.
Example ex_ops_typed : Forall op_typed ex_ops.
Proof. repeat constructor. Qed.
Definition ex_used : pool := match run ex_pool ex_ops with Done (p, _) => p | _ => ex_pool end.
Example ex_reachable : reachable ex_used.
Proof.
  exists true, ex_buffer, 4%N, ex_pool, ex_ops.
  eexists. split; [exact ex_pool_ok|]. split; [exact ex_ops_typed|]. vm_compute. reflexivity.
Qed.
Example ex_holds : holds ex_used [bs "abc"; []; [9;9;9;9]%N ++ bs "k2"].
Proof. vm_compute. reflexivity. Qed.

(** C01: every history on a fresh pool is answered as by a stack of byte strings, and what is
    stored at the end is what that stack holds. In particular no operation panics. *)
Theorem C01_pool_is_a_stack : forall checks buffer lim p0 ops,
  pool_new checks buffer lim = Done (Ok p0) -> Forall op_typed ops ->
  exists p answers s,
    run p0 ops = Done (p, answers) /\ stack_run [] ops answers s /\ holds p s.
Proof. exact pool_is_stack. Qed.
Print Assumptions C01_pool_is_a_stack.
Example C01_example :
  exists p, run ex_pool ex_ops = Done (p,
    [ABytesRes (Ok (bs "abc")); AAssocRes (Ok ([1;2;3;4]%N, bs "key")); AOpt (Some (bs "abc"));
     AOpt (Some ([1;2;3;4]%N ++ bs "key")); AOpt (Some (bs "abc")); ABytesRes (Ok []);
     AAssocRes (Ok ([9;9;9;9]%N, bs "k2")); ANat 3; AOptAssoc (Some ([9;9;9;9]%N, bs "k2"))]).
Proof. eexists. vm_compute. reflexivity. Qed.

(** C02: a failed push changes neither the contents nor any later answer. *)
Theorem C02_failed_push_leaves_no_trace : forall p o p' e,
  reachable p -> op_typed o ->
  (exists d, o = OPush d /\ step p o = Done (p', ABytesRes (Err e))) \/
  (exists t v d, o = OPushAssoc t v d /\ step p o = Done (p', AAssocRes (Err e))) ->
  contents p' = contents p /\ same_answers p' p.
Proof. exact failed_push_no_trace. Qed.
Print Assumptions C02_failed_push_leaves_no_trace.
Example C02_example : exists p',
  step ex_used (OPush (repeat 1%N 30)) = Done (p', ABytesRes (Err (BufferOverflow 30 30)))
  \/ step ex_used (OPush (repeat 1%N 31)) = Done (p', ABytesRes (Err (BufferOverflow 31 30))).
Proof. eexists. right. vm_compute. reflexivity. Qed.

(** C03: on every pool reached by any history a plain push answers exactly as the layout of the
    stored items demands; with plain histories the layout is just the sum of the lengths. *)
Theorem C03_push_succeeds_exactly : forall checks buffer lim p0 ops p answers d,
  pool_new checks buffer lim = Done (Ok p0) -> (lim * 4 + 1 < usize_modulus)%N ->
  Forall op_typed ops -> run p0 ops = Done (p, answers) ->
  exists lay p', occupies p lay /\
    step p (OPush d) =
      Done (p', verdict_answer (push_verdict lim (pool_len p) (len buffer - N.to_nat (lim * 4))
                                  (lay_end lay) (len d)) d).
Proof. exact push_succeeds_exactly. Qed.
Print Assumptions C03_push_succeeds_exactly.

Theorem C03_plain_push_succeeds_exactly : forall checks buffer lim p0 ops p answers d,
  pool_new checks buffer lim = Done (Ok p0) -> (lim * 4 + 1 < usize_modulus)%N ->
  forallb plain_op ops = true -> run p0 ops = Done (p, answers) ->
  exists s p', holds p s /\
    step p (OPush d) =
      Done (p', verdict_answer (push_verdict lim (List.length s) (len buffer - N.to_nat (lim * 4))
                                  (total_length s) (len d)) d).
Proof. exact plain_push_succeeds_exactly. Qed.
Print Assumptions C03_plain_push_succeeds_exactly.
Example C03_example :
  (4 * 4 + 1 < usize_modulus)%N /\
  forallb plain_op [OPush (bs "abc"); OPush (bs "de"); OPop] = true /\
  push_verdict 4 1 44 3 41 = None /\ push_verdict 4 1 44 3 42 = Some (BufferOverflow 42 41).
Proof. vm_compute. auto. Qed.

(** C04: the items occupy disjoint, increasing ranges inside the data area, and no operation of
    any history panics (C01 gives [Done] for every history). *)
Theorem C04_items_disjoint_in_bounds : forall p, reachable p -> exists lay, occupies p lay.
Proof. exact reachable_occupies. Qed.
Print Assumptions C04_items_disjoint_in_bounds.
Example C04_example : occupies ex_used [(0, 3); (3, 0); (8, 6)].
Proof.
  split; [reflexivity|]. split.
  - intros [|[|[|[|i]]]] st n H; inversion H; subst; (split; [vm_compute; lia|eexists; vm_compute; eauto]).
  - intros [|[|[|[|i]]]] [|[|[|[|j]]]] st n st' n' Hij H H'; inversion H; inversion H'; subst; lia.
Qed.

(** C05: an associated value comes back byte for byte, at once and after any later history that
    does not remove or replace the item. *)
Theorem C05_assoc_round_trip : forall p t v d p1 r,
  reachable p -> len v = t_size t -> 0 < t_align t ->
  push_assoc p t v d = Done (p1, Ok r) ->
  r = (v, d) /\
  pool_len p1 = pool_len p + 1 /\
  get_assoc p1 t (pool_len p) = Done (Some (v, d)) /\
  top_assoc p1 t = Done (Some (v, d)) /\
  top_assoc_obj p1 t = Done (Some v) /\
  top_assoc_bytes p1 t = Done (Some d) /\
  (exists p2, pop_assoc p1 t = Done (p2, Some (v, d)) /\ contents p2 = contents p) /\
  firstn (pool_len p) (contents p1) = contents p.
Proof. exact assoc_round_trip. Qed.
Print Assumptions C05_assoc_round_trip.

Theorem C05_assoc_survives : forall p t v d p1 r ops p2,
  reachable p -> len v = t_size t -> 0 < t_align t ->
  push_assoc p t v d = Done (p1, Ok r) ->
  stays_above (pool_len p) p1 ops p2 ->
  get_assoc p2 t (pool_len p) = Done (Some (v, d)).
Proof. exact assoc_survives. Qed.
Print Assumptions C05_assoc_survives.
Example C05_example : exists p1 p2,
  push_assoc ex_used ex_ty [5;6;7;8]%N (bs "name") = Done (p1, Ok ([5;6;7;8]%N, bs "name")) /\
  stays_above (pool_len ex_used) p1 [OPush (bs "x"); OTop] p2.
Proof.
  eexists. eexists. split; [vm_compute; reflexivity|].
  econstructor; [vm_compute; lia|vm_compute; reflexivity|exact I|discriminate|].
  econstructor; [vm_compute; lia|vm_compute; reflexivity|exact I|discriminate|].
  constructor. vm_compute. lia.
Qed.

(** C06: values are aligned relative to the start of the data area, hence aligned in memory
    whenever the data area is; but nothing makes the data area aligned: already with one slice
    a buffer at an address divisible by 16 gives a misaligned 8-byte value. *)
Theorem C06_aligned_if_data_area_aligned : forall base p t v d p1 r,
  reachable p -> len v = t_size t -> 0 < t_align t ->
  (data_address base p 0 mod N.of_nat (t_align t) = 0)%N ->
  push_assoc p t v d = Done (p1, Ok r) ->
  exists st lay, slice (data p1) st (st + t_size t) = Some v /\
    occupies p1 (lay ++ [(st, t_size t + len d)]) /\
    (data_address base p1 st mod N.of_nat (t_align t) = 0)%N.
Proof. exact assoc_aligned_if_base_aligned. Qed.
Print Assumptions C06_aligned_if_data_area_aligned.
Example C06_example : (data_address 16 ex_used 0 mod N.of_nat (t_align ex_ty) = 0)%N.
Proof. reflexivity. Qed.

Theorem C06_alignment_refuted :
  exists base buffer p0 p1 v,
    (base mod 16 = 0)%N /\ pool_new true buffer 1 = Done (Ok p0) /\
    push_assoc p0 (mkTy 8 8) v [] = Done (p1, Ok (v, [])) /\ len v = 8 /\
    get p1 0 = Done (Some v) /\ occupies p1 [(0, 8)] /\
    (data_address base p1 0 mod 8 <> 0)%N.
Proof.
  exists 4096%N, (repeat 0%N 20). eexists. eexists. exists (repeat 7%N 8).
  split; [reflexivity|]. split; [vm_compute; reflexivity|]. split; [vm_compute; reflexivity|].
  split; [reflexivity|]. split; [vm_compute; reflexivity|]. split; [|vm_compute; discriminate].
  split; [reflexivity|]. split.
  - intros [|[|i]] st n H; inversion H; subst. split; [vm_compute; lia|eexists; vm_compute; eauto].
  - intros [|[|i]] [|[|j]] st n st' n' Hij H H'; inversion H; inversion H'; subst; lia.
Qed.
Print Assumptions C06_alignment_refuted.

(** C07: a successful replacement changes exactly the top bytes; a failing one changes nothing as long
    as value and new bytes together stay below 65536 bytes; beyond that the error is reported
    after the top item has been overwritten. *)
Theorem C07_replace_success : forall p t d p1 r s,
  reachable p -> holds p s ->
  replace_top_assoc_bytes p t d = Done (p1, Ok r) ->
  r = d /\ exists below v old,
    s = below ++ [v ++ old] /\ len v = t_size t /\ holds p1 (below ++ [v ++ d]) /\
    top_assoc p1 t = Done (Some (v, d)).
Proof. exact replace_success. Qed.
Print Assumptions C07_replace_success.
Theorem C07_replace_error_partial : forall p t d p1 e,
  reachable p -> (N.of_nat (t_size t + len d) <= 65535)%N ->
  replace_top_assoc_bytes p t d = Done (p1, Err e) -> p1 = p.
Proof. exact replace_error_unchanged. Qed.
Print Assumptions C07_replace_error_partial.
Example C07_example :
  (exists p1, replace_top_assoc_bytes ex_used ex_ty (bs "longer") = Done (p1, Ok (bs "longer")) /\
     holds p1 [bs "abc"; []; [9;9;9;9]%N ++ bs "longer"]) /\
  replace_top_assoc_bytes ex_used ex_ty (repeat 1%N 60) = Done (ex_used, Err (BufferOverflow 60 32)).
Proof. split; [eexists|]; vm_compute; auto. Qed.

Theorem C07_replace_error_refuted :
  exists buffer p0 p1 p2 d e,
    pool_new true buffer 1 = Done (Ok p0) /\
    push_assoc p0 unit_ty [] (bs "a") = Done (p1, Ok ([], bs "a")) /\
    get p1 0 = Done (Some (bs "a")) /\
    replace_top_assoc_bytes p1 unit_ty d = Done (p2, Err e) /\
    get p2 0 = Done (Some (bs "b")).
Proof. exact replace_error_clobbers. Qed.
Print Assumptions C07_replace_error_refuted.

(** C08: after any number of calls every iterator yields the next stored item of its order, and
    announces exactly how many are left. (The associated iterators yield what [get_assoc] yields,
    so an item too short for the asked type appears as [None].) *)
Theorem C08_iter : forall p k s,
  reachable p -> holds p s ->
  let it := iterate (fun it => snd (iter_next p it)) k (iter_start p) in
  fst (iter_next p it) = nth_error s k /\ fwd_size it = List.length s - k.
Proof. exact iter_agrees. Qed.
Print Assumptions C08_iter.
Theorem C08_iter_rev : forall p k s,
  reachable p -> holds p s ->
  let it := iterate (fun it => snd (rev_next p it)) k (rev_start p) in
  fst (rev_next p it) = nth_error (rev s) k /\ it = List.length s - k.
Proof. exact rev_iter_agrees. Qed.
Print Assumptions C08_iter_rev.
Theorem C08_iter_pairs : forall p k s,
  reachable p -> holds p s ->
  let it := iterate (fun it => snd (pair_next p it)) k (iter_start p) in
  fst (pair_next p it) = nth_pair s k /\ pair_size it = List.length s / 2 - k.
Proof. exact pair_iter_agrees. Qed.
Print Assumptions C08_iter_pairs.
Theorem C08_iter_assoc : forall p t k s,
  reachable p -> holds p s ->
  let it := iterate (fun it => snd (assoc_next p t it)) k 0 in
  fst (assoc_next p t it) = Done (obind_opt (nth_error s k) (split_value (t_size t))) /\
  assoc_size p it = List.length s - k.
Proof. exact assoc_iter_agrees. Qed.
Print Assumptions C08_iter_assoc.
Theorem C08_iter_assoc_rev : forall p t k s,
  reachable p -> holds p s ->
  let it := iterate (fun it => snd (assoc_rev_next p t it)) k (assoc_rev_start p) in
  fst (assoc_rev_next p t it) = Done (obind_opt (nth_error (rev s) k) (split_value (t_size t))) /\
  assoc_rev_size it = List.length s - k.
Proof. exact assoc_rev_iter_agrees. Qed.
Print Assumptions C08_iter_assoc_rev.
Example C08_example :
  fst (pair_next ex_used (iter_start ex_used)) = Some (bs "abc", []) /\
  fst (rev_next ex_used (rev_start ex_used)) = Some ([9;9;9;9]%N ++ bs "k2").
Proof. vm_compute. auto. Qed.

(** C09: exact acceptance as long as the size computation does not wrap; with 64-bit wrap-around
    (release profile) a limit of 2^62 is accepted for a one-byte buffer and the resulting pool can
    store nothing; with overflow checks (debug profile) the same call panics. *)
Theorem C09_new_exact_partial : forall checks buffer lim,
  (lim * 4 + 1 < usize_modulus)%N ->
  (forall e, pool_new checks buffer lim = Done (Err e) -> exists r, e = InvalidInitialization r) /\
  (exists r, pool_new checks buffer lim = Done r) /\
  ((exists p, pool_new checks buffer lim = Done (Ok p)) <->
   (0 < lim)%N /\ (4 * lim + 1 <= N.of_nat (len buffer))%N).
Proof. exact new_exact. Qed.
Print Assumptions C09_new_exact_partial.
Example C09_example :
  (4 * 4 + 1 < usize_modulus)%N /\ (0 < 4)%N /\ (4 * 4 + 1 <= N.of_nat (len ex_buffer))%N.
Proof. vm_compute. repeat split; discriminate. Qed.
Theorem C09_new_refuted :
  exists buffer lim p p' d e,
    (lim < usize_modulus)%N /\ len buffer = 1 /\
    pool_new false buffer lim = Done (Ok p) /\
    push p d = Done (p', Err e) /\ len d = 0 /\
    pool_new true buffer lim = Panic.
Proof.
  exists [0%N], 4611686018427387904%N. eexists. eexists. exists []. eexists.
  split; [reflexivity|]. split; [reflexivity|]. split; [vm_compute; reflexivity|].
  split; [vm_compute; reflexivity|]. split; [reflexivity|]. vm_compute; reflexivity.
Qed.
Print Assumptions C09_new_refuted.
