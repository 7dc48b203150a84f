(** Every scan comes to an end, and without a panic, if the callbacks play their part. *)
From Verif Require Import Base U8Pool PoolSpec PoolProofs Buffer BufferProofs Jiter JiterProofs RJiter RJiterSpec RJiterProofs RJiterOpProofs RJiterLookProofs RJiterLongProofs RJiterInvProofs.
From Verif Require Import Scan ScanSpec ScanParser RJiterEndProofs ScanStack ScanProofs ScanTop EndsSpec ScanBalance.

(** What the scanner has announced to the callbacks so far: it is between two values, at a value, or inside an object. *)
Inductive place := Between | Awaiting | Inside.

Section Ends.
Context {B : Type} (c : nat) (q strict steady : bool) (halted : rj -> Prop) (K : place -> list entry -> B -> Prop) (cb : callbacks B).
Definition context_for (L : list entry) : context := mkCtx (path_of L) (List.length L).
Definition before (name : pseudoname) (L : list entry) (u : B) : Prop :=
  match name with
  | PNone => exists k L', L = key_entry k :: L' /\ K Inside L' u
  | _ => K Awaiting L u
  end.
(** After a begin action that leaves the value to the scanner. *)
Definition passed (name : pseudoname) (L : list entry) (u : B) : Prop :=
  match name with
  | PObject => K Inside L u
  | PArray => K Between (array_entry :: L) u
  | PAtom => K Between L u
  | PNone => K Awaiting L u
  end.
Definition acted (a : option (end_action B)) (u : B) (Q : B -> Prop) : Prop :=
  match a with
  | None => Q u
  | Some act => match act u with
                | Done (u', Ok _) => Q u'
                | Done (_, Err _) => True
                | Panic => steady = false
                | Diverge => False
                end
  end.
(** The callbacks as seen from the scanner: [K] holds where it should, no action moves the parser backwards or out of order, and
    (if [strict]) one that claims to have consumed a value has consumed at least a byte, or leaves the parser where it cannot go on. *)
Record cooperative : Prop := {
  co_element : forall L u, K Between (array_entry :: L) u -> K Awaiting (array_entry :: L) u;
  co_document : forall L u, K Between (top_entry :: L) u -> K Awaiting (top_entry :: L) u;
  co_begin : forall name L r u, ready c q r -> before name L u ->
    let '(u1, a) := find_action cb name (context_for L) u in
    match a with
    | None => passed name L u1
    | Some act =>
        match act r u1 with
        | Done (r', u', OpNone) => ready c q r' /\ left r' <= left r /\ passed name L u'
        | Done (r', u', ValueIsConsumed) =>
            ready c q r' /\ left r' <= left r /\ (strict = true -> name <> PNone -> left r' < left r \/ (name = PAtom /\ halted r')) /\ K Between L u'
        | Done (_, _, OpError _) => True
        | Panic => steady = false
        | Diverge => False
        end
    end;
  co_halted_array : forall r r' v, halted r -> array_step r <> Done (r', Ok v);
  co_halted_object : forall r r' v, halted r -> next_key_bytes r <> Done (r', Ok v);
  co_key_end : forall k L u, K Between (key_entry k :: L) u ->
    let '(u1, a) := find_end_action cb PNone (context_for (key_entry k :: L)) u in acted a u1 (K Inside L);
  co_object_end : forall L u, K Inside L u ->
    let '(u1, a) := find_end_action cb PObject (context_for L) u in acted a u1 (K Between L);
  co_array_end : forall L u, K Between (array_entry :: L) u ->
    let '(u1, a) := find_end_action cb PArray (context_for L) u in acted a u1 (K Between L) }.

Context (Hco : cooperative) (o : options) (d : dims) (es0 : list entry).
Context (Hc : 8 <= c) (Htok : Forall (fun t => 1 <= len t) (sse_tokens o)) (Hq : sse_tokens o = [] \/ q = true) (Hstop : stop_early o = true \/ forall r, ~ halted r).

Notation full es := (es ++ top_entry :: es0).
(** A step from a state with [n] bytes to go. *)
Definition stays (n : nat) (s : sstate B) : Prop := ready c q (parser s) /\ left (parser s) <= n.
Definition goes {X} (x : sres B X) (Q : sstate B -> X -> Prop) : Prop :=
  match x with
  | Done (s, Ok v) => Q s v
  | Done (_, Err e) => ~ impossible e
  | Panic => steady = false
  | Diverge => False
  end.
Lemma goes_sbind {X Y} (x : sres B X) (f : sstate B -> X -> sres B Y) Q R : goes x Q -> (forall s v, Q s v -> goes (f s v) R) -> goes (sbind x f) R.
Proof. destruct x as [[s [v|e]]| |]; cbn; auto. Qed.
Lemma not_impossible e : (forall i m, e <> InternalError i m) -> ~ impossible e.
Proof. intros H (i & m & E & _). exact (H _ _ E). Qed.
Lemma begin_goes name s L n : stack_of d (stack s) L -> before name L (user s) -> stays n s ->
  goes (run_begin cb name s) (fun s' consumed => stack s' = stack s /\ stays n s' /\
    if consumed then K Between L (user s') /\ (strict = true -> name <> PNone -> left (parser s') < n \/ (name = PAtom /\ halted (parser s'))) else passed name L (user s')).
Proof.
  intros Hs Hb (HR & Hl). unfold run_begin. rewrite (stack_context _ _ _ Hs). cbn [obind]. pose proof (co_begin Hco name L (parser s) (user s) HR Hb) as H.
  unfold context_for in H. destruct (find_action cb name _ (user s)) as [u1 [act|]].
  - destruct (act (parser s) u1) as [[[r' u'] op]| |]; cbn [obind]; [|exact H|exact H]. destruct op as [| |m]; cbn [goes].
    + destruct H as (H1 & H2 & H3). cbn [parser user stack]. split; [reflexivity|]. split; [split; [exact H1|cbn [parser]; lia]|exact H3].
    + destruct H as (H1 & H2 & H3 & H4). cbn [parser user stack]. split; [reflexivity|]. split; [split; [exact H1|cbn [parser]; lia]|].
      split; [exact H4|]. intros A1 A2. destruct (H3 A1 A2) as [A3|A3]; [left; lia|right; exact A3].
    + apply not_impossible. discriminate.
  - cbn [goes]. cbn [parser user stack]. split; [reflexivity|]. split; [split; [exact HR|exact Hl]|exact H].
Qed.
Lemma acted_goes a s Q n : acted a (user s) Q -> stays n s -> goes (run_end_action a s) (fun s' _ => stack s' = stack s /\ stays n s' /\ Q (user s')).
Proof.
  intros H Hs. destruct a as [act|]; [|cbn; auto]. cbn in *. destruct (act (user s)) as [[u' [[]|m]]| |]; cbn [obind]; [|apply not_impossible; discriminate|exact H|exact H].
  cbn [goes]. auto.
Qed.
Lemma end_goes name s L Q n : stack_of d (stack s) L ->
  (let '(u1, a) := find_end_action cb name (context_for L) (user s) in acted a u1 Q) -> stays n s ->
  goes (run_end cb name s) (fun s' _ => stack s' = stack s /\ stays n s' /\ Q (user s')).
Proof.
  intros Hs H Hn. unfold run_end, look_up_end. rewrite (stack_context _ _ _ Hs). cbn [obind]. unfold context_for in H.
  destruct (find_end_action cb name _ (user s)) as [u1 a]. cbn [obind]. apply (acted_goes a (mkS (parser s) u1 (stack s)) Q n); [exact H|exact Hn].
Qed.
Lemma parse_goes {X} k known token (f : jop X) op s n : method k known token f op -> stays n s ->
  goes (parse op s) (fun s' _ => stack s' = stack s /\ user s' = user s /\ stays n s' /\ (advancing f -> left (parser s') < n)).
Proof.
  intros M (HR & Hl). unfold parse. destruct (method_ready c q k known token f op (parser s) M ltac:(lia) HR) as (r & v & E & P).
  rewrite E. cbn [obind]. destruct v as [v|e]; [|apply not_impossible; discriminate]. destruct P as (P1 & P2 & P3). cbn [goes parser user stack].
  do 2 (split; [reflexivity|]). split; [split; [exact P1|cbn [parser]; lia]|]. intros A1. specialize (P3 A1). lia.
Qed.
(** What [K] says at a position of the main loop. *)
Definition keeps (p : position) (L : list entry) (u : B) : Prop :=
  match p with Top | ObjectMiddle | ArrayMiddle => K Between L u | ObjectBetweenKV | ObjectBegin | ArrayBegin => K Awaiting L u end.
Definition stands (p : position) (s : sstate B) : Prop := exists es, fitting p es /\ names_are d es0 es (stack s) /\ keeps p (full es) (user s).
Definition settled (p : position) : Prop := p = Top \/ p = ObjectMiddle \/ p = ArrayMiddle.
Lemma position_goes m es s n : inner es -> names_are d es0 es (stack s) -> K Between (full es) (user s) -> stays n s ->
  goes (top_position m s) (fun s' p => stands p s' /\ settled p /\ s' = s).
Proof.
  intros Hi Hn Hk Hs. unfold top_position. rewrite (stack_top _ _ _ Hn). cbn [obind].
  destruct Hi as [|k es Hi|es Hi]; cbn [app key_entry array_entry top_entry obind]; cbn [goes]; unfold settled; (split; [|auto]);
    (eexists; split; [|split; [exact Hn|exact Hk]]); (split; [eauto using inner|]); cbn; eauto.
Qed.
Lemma object_goes pos s n : pos = ObjectBegin \/ pos = ObjectMiddle -> stands pos s -> stays n s ->
  goes (handle_object cb pos s) (fun s' p => stands p s' /\ stays n s' /\ p <> ObjectBegin /\ p <> ArrayBegin /\ (strict = true -> left (parser s') < n)).
Proof.
  intros Hp (es & (Hi & Hf) & Hn & Hk) Hs. unfold handle_object.
  assert (HK : forall es s k op token (f : jop (option bytes)) n, method k false (Some token) f op ->
      inner es -> names_are d es0 es (stack s) -> K Inside (full es) (user s) -> stays n s -> goes (sbind (parse op s)
      (fun s keyr =>
    match keyr with
    | None =>
        sbind (run_end cb PObject s) (fun s _ => top_position "Context stack is empty when ending object" s)
    | Some key =>
        do (p, pushed) <- push_assoc (stack s) pos_ty [pos_code ObjectMiddle] key;
        let s := mkS (parser s) (user s) p in
        match pushed with
        | Err (SliceLimitExceeded max) => Done (s, Err (MaxNestingExceeded (current_index (parser s)) max))
        | Err _ => Done (s, Err (InternalError (current_index (parser s)) "Failed to push key to context pool"))
        | Ok _ =>
            sbind (run_begin cb PNone s)
              (fun s consumed => Done (s, Ok (if consumed then ObjectMiddle else ObjectBetweenKV)))
        end
    end)) (fun s' p => stands p s' /\ stays n s' /\ p <> ObjectBegin /\ p <> ArrayBegin /\ left (parser s') < n)).
  { clear - Hco Hc Htok Hq Hstop. intros es s k op token f n M Hi Hn Hk Hs. eapply goes_sbind; [apply (parse_goes _ _ _ _ _ _ _ M Hs)|].
    intros s1 keyr (Es & Eu & Hs1 & Hl). specialize (Hl (token_advancing _ _ _ _ _ M)).
    assert (Hs1' : stays (left (parser s1)) s1) by (split; [apply Hs1|lia]). destruct keyr as [key|].
    - rewrite Es. destruct (stack_push d (stack s) _ (pos_code ObjectMiddle) key Hn) as (p & r & Ep & H). rewrite Ep. cbn [obind].
      destruct (admit_name d (path_of (full es)) key) as [x|].
      + destruct H as (_ & e & -> & _). assert (HI : forall i, ~ impossible (InternalError i "Failed to push key to context pool")).
        { intros i (i' & m & E & Hm). injection E as _ <-. apply Hm. reflexivity. }
        destruct e; try apply HI. apply not_impossible. discriminate.
      + destruct H as (-> & H). eapply goes_sbind.
        * apply (begin_goes PNone (mkS (parser s1) (user s1) p) (key_entry key :: full es) (left (parser s1))); [exact H| |exact Hs1'].
          exists key, (full es). split; [reflexivity|]. cbn [user]. rewrite Eu. exact Hk.
        * intros s2 consumed (Es2 & Hs2 & HP). cbn [stack] in Es2. destruct Hs2 as (HR2 & Hl2).
          split; [|split; [split; [exact HR2|lia]|split; [destruct consumed; discriminate|split; [destruct consumed; discriminate|lia]]]].
          exists (key_entry key :: es). split; [split; [constructor; exact Hi|destruct consumed; eauto]|]. split; [unfold names_are; rewrite Es2; exact H|].
          destruct consumed; [exact (proj1 HP)|exact HP].
    - eapply goes_sbind.
      + apply (end_goes PObject s1 (full es) (K Between (full es)) (left (parser s1))); [rewrite Es; exact Hn| |exact Hs1'].
        apply (co_object_end Hco). rewrite Eu. exact Hk.
      + intros s2 u2 (Es2 & (HR2 & Hl2) & Hk2). assert (Hn2 : names_are d es0 es (stack s2)) by (unfold names_are; rewrite Es2, Es; exact Hn).
        pose proof (position_goes "Context stack is empty when ending object" es s2 n Hi Hn2 Hk2 ltac:(split; [exact HR2|lia])) as HP.
        destruct (top_position _ s2) as [[s3 [p3|e]]| |]; cbn [goes] in *; auto. destruct HP as (HP & Hset & ->).
        split; [exact HP|]. split; [split; [exact HR2|lia]|].
        split; [destruct Hset as [-> | [-> | ->]]; discriminate|]. split; [destruct Hset as [-> | [-> | ->]]; discriminate|lia]. }
  assert (HW : forall x, goes x (fun s' p => stands p s' /\ stays n s' /\ p <> ObjectBegin /\ p <> ArrayBegin /\ left (parser s') < n) ->
    goes x (fun s' p => stands p s' /\ stays n s' /\ p <> ObjectBegin /\ p <> ArrayBegin /\ (strict = true -> left (parser s') < n))).
  { intros [[sx [vx|ex]]| |]; cbn [goes]; auto. intros (A1 & A2 & A3 & A4 & A5). auto 10. }
  destruct Hp as [-> | ->].
  - change (pos_eqb ObjectBegin ObjectBegin) with true. cbv beta zeta iota.
    eapply goes_sbind; [apply (begin_goes PObject s (full es) n Hn Hk Hs)|]. intros s1 consumed (Es & Hs1 & HP).
    assert (Hn1 : names_are d es0 es (stack s1)) by (unfold names_are; rewrite Es; exact Hn). destruct consumed.
    + destruct HP as (HP & Hlt). pose proof (position_goes "Context stack is empty when handling ValueIsConsumed" es s1 n Hi Hn1 HP Hs1) as H2.
      destruct (top_position _ s1) as [[s3 [p3|e]]| |]; cbn [goes] in *; auto. destruct H2 as (H2 & Hset & ->).
      split; [exact H2|]. split; [exact Hs1|].
      split; [destruct Hset as [-> | [-> | ->]]; discriminate|]. split; [destruct Hset as [-> | [-> | ->]]; discriminate|].
      intros A1. destruct (Hlt A1 ltac:(discriminate)) as [A3|(A3 & _)]; [exact A3|discriminate].
    + cbn [sbind]. apply HW. exact (HK es s1 _ _ _ _ n m_next_object_bytes Hi Hn1 HP Hs1).
  - change (pos_eqb ObjectMiddle ObjectBegin) with false. cbv beta zeta iota.
    destruct Hf as (k & es' & ->). assert (Hi' : inner es') by (inversion Hi; assumption). apply HW.
    apply goes_sbind with (fun s' (_ : unit) => names_are d es0 es' (stack s') /\ stays n s' /\ K Inside (full es') (user s')).
    + unfold look_up_end. rewrite (stack_context _ _ _ Hn). cbn [obind]. pose proof (co_key_end Hco k (full es') (user s) Hk) as H.
      unfold context_for in H. cbn [app] in *.
      destruct (find_end_action cb PNone _ (user s)) as [u1 a]. cbn [obind stack parser user].
      destruct (stack_pop _ _ _ _ _ Hn) as (p & Ep & Hp). rewrite Ep. cbn [obind].
      pose proof (acted_goes a (mkS (parser s) u1 p) (K Inside (full es')) n H Hs) as H3.
      destruct (run_end_action a (mkS (parser s) u1 p)) as [[s2 [v|e]]| |]; cbn [goes] in *; auto.
      destruct H3 as (H3 & H4 & H5). cbn [stack] in H3. split; [unfold names_are; rewrite H3; exact Hp|]. auto.
    + intros s1 v1 (Hn1 & Hs1 & Hk1). exact (HK es' s1 _ _ _ _ n m_next_key_bytes Hi' Hn1 Hk1 Hs1).
Qed.
Definition element (n : nat) (s : sstate B) (r : option byte * position) : Prop :=
  stands (snd r) s /\ stays n s /\ settled (snd r) /\
  match fst r with Some _ => snd r = ArrayMiddle /\ left (parser s) < n | None => strict = true -> left (parser s) < n end.
Lemma array_goes pos s n : pos = ArrayBegin \/ pos = ArrayMiddle -> stands pos s -> stays n s -> goes (handle_array cb pos s) (element n).
Proof.
  intros Hp (es & (Hi & Hf) & Hn & Hk) Hs. unfold handle_array.
  assert (HP : forall m s es, inner es -> names_are d es0 es (stack s) -> K Between (full es) (user s) -> stays n s -> (strict = true -> left (parser s) < n) ->
    goes (sbind (top_position m s) (fun s p => Done (s, Ok (None, p)))) (element n)).
  { intros m s1 es1 Hi1 Hn1 Hk1 Hs1 Hl1. eapply goes_sbind; [apply (position_goes m es1 s1 n); auto|]. intros s2 p (H1 & H2 & ->).
    split; [exact H1|]. split; [exact Hs1|]. split; [exact H2|exact Hl1]. }
  assert (HK : forall es s k known op token (f : jop (option byte)), method k known (Some token) f op ->
    inner es -> names_are d es0 (array_entry :: es) (stack s) -> K Between (array_entry :: full es) (user s) -> stays n s -> goes (sbind (parse op s)
      (fun s peeked =>
    match peeked with
    | Some x => Done (s, Ok (Some x, ArrayMiddle))
    | None =>
        do (p, popped) <- pop_assoc (stack s) pos_ty;
        let s := mkS (parser s) (user s) p in
        match popped with
        | None => Done (s, Err (InternalError (current_index (parser s)) "Context stack is empty when ending array"))
        | Some _ => sbind (run_end cb PArray s) (fun s _ => 
            sbind (top_position "Context stack is empty when ending array" s) (fun s p => Done (s, Ok (None, p))))
        end
    end)) (element n)).
  { clear - HP Hco Hc Htok Hq Hstop. intros es s k known op token f M Hi Hn Hk Hs. eapply goes_sbind; [apply (parse_goes _ _ _ _ _ _ _ M Hs)|].
    intros s1 keyr (Es & Eu & Hs1 & Hl). specialize (Hl (token_advancing _ _ _ _ _ M)). destruct keyr as [x|].
    - split; [|split; [exact Hs1|split; [right; right; reflexivity|split; [reflexivity|exact Hl]]]].
      exists (array_entry :: es). split; [split; [constructor; exact Hi|cbn; eauto]|]. split; [unfold names_are; rewrite Es; exact Hn|]. rewrite Eu. exact Hk.
    - rewrite Es. destruct (stack_pop _ _ _ _ _ Hn) as (p & Ep & H). rewrite Ep. cbn [obind].
      eapply goes_sbind.
      + apply (end_goes PArray (mkS (parser s1) (user s1) p) (full es) (K Between (full es)) (left (parser s1))); [exact H| |split; [apply Hs1|cbn [parser]; lia]].
        apply (co_array_end Hco). cbn [user]. rewrite Eu. exact Hk.
      + intros s2 u2 (Es2 & (HR2 & Hl2) & Hk2). cbn [stack] in Es2. apply HP with es; auto.
        * unfold names_are. rewrite Es2. exact H.
        * split; [exact HR2|lia].
        * intros _. lia. }
  destruct Hp as [-> | ->].
  - change (pos_eqb ArrayBegin ArrayBegin) with true. cbv beta zeta iota.
    eapply goes_sbind; [apply (begin_goes PArray s (full es) n Hn Hk Hs)|]. intros s1 consumed (Es & Hs1 & HB).
    assert (Hn1 : names_are d es0 es (stack s1)) by (unfold names_are; rewrite Es; exact Hn). destruct consumed.
    + destruct HB as (HB & Hlt). apply HP with es; auto. intros A. destruct (Hlt A ltac:(discriminate)) as [A3|(A3 & _)]; [exact A3|discriminate].
    + destruct (stack_push d (stack s1) _ (pos_code ArrayMiddle) (bs "#array") Hn1) as (p & r & Ep & H). rewrite Ep. cbn [obind].
      destruct (admit_name d _ (bs "#array")) as [x|].
      * destruct H as (_ & e & -> & _). apply not_impossible. discriminate.
      * destruct H as (-> & H). apply (HK es (mkS (parser s1) (user s1) p) _ _ _ _ _ m_known_array Hi H HB Hs1).
  - change (pos_eqb ArrayMiddle ArrayBegin) with false. cbv beta zeta iota.
    destruct Hf as (es' & ->). apply (HK es' s _ _ _ _ _ m_array_step); [inversion Hi; assumption|exact Hn|exact Hk|exact Hs].
Qed.
(** Skipping a value. After a failure the tokens are tried only if there are any; then the reader does not fail. *)
Definition skips (n : nat) (s : sstate B) (x : sres B unit) : Prop :=
  exists s' r, x = Done (s', r) /\ stack s' = stack s /\ user s' = user s /\
    match r with Ok _ => stays n s' /\ left (parser s') < n | Err _ => q = true -> adrift c (parser s') /\ left (parser s') <= n end.
Lemma skip_goes x s n : stays n s -> skips n s (skip_basic_values x s).
Proof.
  intros (HR & Hl).
  assert (HI : forall X k known token (f : jop X) op, method k known token f op -> advancing f -> reined f -> skips n s (sbind (parse op s) (fun s _ => Done (s, Ok tt)))).
  { intros X k known token f op M Ha Hr. unfold parse, skips.
    destruct (method_ready c q k known token f op (parser s) M ltac:(lia) HR) as (r & v & E & P). rewrite E. cbn [obind].
    destruct v as [v|e]; cbn [sbind].
    - destruct P as (P1 & P2 & P3). specialize (P3 Ha). eexists _, _. split; [reflexivity|]. cbn [stack user parser]. do 2 (split; [reflexivity|]).
      split; [split; [exact P1|cbn [parser]; lia]|lia].
    - eexists _, _. split; [reflexivity|]. cbn [stack user parser]. do 2 (split; [reflexivity|]). intros Q. assert (HR2 : ready c true (parser s)) by (rewrite <- Q; exact HR).
      destruct (method_failed c true k known token f op (parser s) r e M Hr ltac:(lia) HR2 E ltac:(auto)) as (A1 & A2). split; [apply ready_adrift, A1|lia]. }
  unfold skip_basic_values. destruct (N.eqb x QUOTE).
  { unfold parse, skips. destruct (long_ready c q (parser s) (mkWriter [] None) Hc HR) as (r & w' & v & E & P). rewrite E. cbn [obind].
    destruct v as [v|e]; cbn [sbind].
    - destruct P as (P1 & P2). eexists _, _. split; [reflexivity|]. cbn [stack user parser]. do 2 (split; [reflexivity|]).
      split; [split; [exact P1|cbn [parser]; lia]|lia].
    - eexists _, _. split; [reflexivity|]. cbn [stack user parser]. do 2 (split; [reflexivity|]). intros Q. assert (HR2 : ready c true (parser s)) by (rewrite <- Q; exact HR).
      destruct (long_adrift c (parser s) r w' (Err e) HR2 E) as (A1 & A2). split; [exact A1|lia]. }
  assert (Hid : forall w, advancing (j_ident w tt)) by (intros w; apply ident_advancing).
  destruct (N.eqb x PeekNull); [apply (HI _ _ _ _ _ _ m_known_null); [apply ident_advancing|apply inert_reined, ident_inert]|].
  destruct (N.eqb x PeekTrue); [apply (HI _ _ _ _ _ _ (m_known_bool x)); [apply known_bool_advancing|apply inert_reined, known_bool_inert]|].
  destruct (N.eqb x PeekFalse); [apply (HI _ _ _ _ _ _ (m_known_bool x)); [apply known_bool_advancing|apply inert_reined, known_bool_inert]|].
  destruct (method_ready c q _ _ _ _ _ (parser s) m_next_number_bytes ltac:(lia) HR) as (r & v & E & P). rewrite E. cbn [obind].
  unfold skips. destruct v as [v|e].
  - destruct P as (P1 & P2 & P3). specialize (P3 number_advancing). eexists _, _. split; [reflexivity|]. cbn [stack user parser]. do 2 (split; [reflexivity|]).
    split; [split; [exact P1|cbn [parser]; lia]|lia].
  - eexists _, _. split; [reflexivity|]. cbn [stack user parser]. do 2 (split; [reflexivity|]). intros Q. assert (HR2 : ready c true (parser s)) by (rewrite <- Q; exact HR).
    destruct (method_failed c true _ _ _ _ _ (parser s) r e m_next_number_bytes number_reined ltac:(lia) HR2 E ltac:(auto)) as (A1 & A2). split; [apply ready_adrift, A1|lia].
Qed.
Lemma tokens_goes ts : Forall (fun t => 1 <= len t) ts -> forall s n, (ts = [] \/ q = true /\ adrift c (parser s) /\ left (parser s) <= n) ->
  exists s' b, skip_tokens ts s = Done (s', b) /\ stack s' = stack s /\ user s' = user s /\ (b = true -> stays n s' /\ left (parser s') < n).
Proof.
  induction ts as [|t ts IH]; intros Ht s n H; cbn [skip_tokens]; [exists s, false; split; [reflexivity|]; do 2 (split; [reflexivity|]); discriminate|].
  destruct H as [H|(Hq' & HA & Hl)]; [discriminate|]. apply Forall_cons_iff in Ht as (Ht & Hts).
  destruct (token_adrift c t (parser s) ltac:(lia) HA) as (r & v & E & P). rewrite E. cbn [obind]. destruct v as [v|e].
  - eexists _, _. split; [reflexivity|]. do 2 (split; [reflexivity|]). intros _. destruct P as (P1 & P2). unfold stays. cbn [parser]. rewrite Hq'. split; [split; [exact P1|lia]|lia].
  - destruct (IH Hts (mkS r (user s) (stack s)) n) as (s' & b & E' & H1 & H2 & H3).
    + right. cbn [parser]. destruct P as (P1 & P2). split; [exact Hq'|]. split; [exact P1|lia].
    + exists s', b. auto.
Qed.
(** One round of the main loop. *)
Definition weighs (p : position) (n : nat) : nat := 2 * n + match p with ObjectBegin | ArrayBegin => 0 | _ => 1 end.
Definition advances (m : nat) (v : sverdict B) : Prop :=
  match v with
  | Done (s, Continue p) => stands p s /\ ready c q (parser s) /\ (strict = true -> weighs p (left (parser s)) < m \/ (1 <= m /\ settled p /\ halted (parser s)))
  | Done (_, Return (Err e)) => ~ impossible e
  | Done (_, Return (Ok _)) => True
  | Panic => steady = false
  | Diverge => False
  end.
Lemma advances_vbind {X} (x : sres B X) f Q m : goes x Q -> (forall s v, Q s v -> advances m (f s v)) -> advances m (vbind x f).
Proof. destruct x as [[s [v|e]]| |]; cbn; auto. Qed.
Lemma settled_keeps p es u : p = Top \/ p = ObjectBetweenKV \/ p = ArrayMiddle -> K Between (full es) u -> keeps (settle p) (full es) u.
Proof. intros [-> | [-> | ->]] H; exact H. Qed.
Lemma value_goes pos x s es n m : pos = Top \/ pos = ObjectBetweenKV \/ pos = ArrayMiddle -> fitting pos es -> names_are d es0 es (stack s) ->
  K Awaiting (full es) (user s) -> stays n s -> 2 * n < m -> advances m (scan_value cb o pos x s).
Proof.
  intros Hp Hf Hn Hk Hs Hm. unfold scan_value. fold (settle pos).
  assert (HB : forall p, p = ArrayBegin \/ p = ObjectBegin -> advances m (Done (s, Continue p))).
  { intros p Hpp. cbn [advances]. split; [exists es; split; [split; [apply Hf|destruct Hpp as [-> | ->]; exact I]|split; [exact Hn|destruct Hpp as [-> | ->]; exact Hk]]|].
    destruct Hs as (HR & Hl). split; [exact HR|]. intros _. left. destruct Hpp as [-> | ->]; cbn; lia. }
  destruct (N.eqb x LBRACK); [apply HB; auto|]. destruct (N.eqb x LBRACE); [apply HB; auto|]. clear HB.
  eapply advances_vbind; [apply (begin_goes PAtom s (full es) n Hn Hk Hs)|]. intros s1 consumed (Es & Hs1 & HP).
  assert (HC : forall s', stack s' = stack s -> K Between (full es) (user s') -> ready c q (parser s') -> (strict = true -> left (parser s') < n \/ halted (parser s')) ->
    advances m (Done (s', Continue (settle pos)))).
  { intros s' E Hk' HR Hl. cbn [advances]. split; [|split; [exact HR|intros A; destruct (Hl A) as [Hl'|Hl']; [left; destruct Hp as [-> | [-> | ->]]; cbn; lia|right]]].
    2: { split; [lia|]. split; [|exact Hl']. unfold settled. destruct Hp as [-> | [-> | ->]]; cbn; auto. }
    exists es. split; [apply settled_fitting; auto|]. split; [unfold names_are; rewrite E; exact Hn|]. apply settled_keeps; auto. }
  destruct consumed.
  { destruct HP as (HP & Hl). apply HC; [exact Es|exact HP|apply Hs1|]. intros A. destruct (Hl A ltac:(discriminate)) as [A3|(_ & A3)]; auto. }
  cbn [passed] in HP. destruct (skip_goes x s1 n Hs1) as (s2 & r & E & Es2 & Eu2 & P). cbv beta zeta. rewrite E. cbn [obind]. destruct r as [v|e].
  { apply HC; [congruence|rewrite Eu2; exact HP|apply P|]. intros _. left. apply P. }
  destruct (_ || _)%bool; [|apply not_impossible; discriminate].
  destruct (tokens_goes (sse_tokens o) Htok s2 n) as (s3 & b & E3 & Es3 & Eu3 & P3).
  { destruct Hq as [Hq'|Hq']; [left; exact Hq'|right]. auto. }
  rewrite E3. cbn [obind]. destruct b; [|apply not_impossible; discriminate].
  destruct (P3 eq_refl) as (P4 & P5). apply HC; [congruence|rewrite Eu3, Eu2; exact HP|apply P4|]. intros _. left. exact P5.
Qed.
Lemma iter_goes pos s n : stands pos s -> stays n s -> advances (weighs pos n) (scan_iter cb o pos s).
Proof.
  intros (es & Hf & Hn & Hk) Hs. destruct pos; cbn [scan_iter].
  - destruct (method_ready c q _ _ _ _ _ (parser s) m_peek ltac:(lia) (proj1 Hs)) as (r & v & E & P). rewrite E. cbn [obind]. destruct v as [x|e].
    + destruct P as (P1 & P2 & _). apply value_goes with es n; auto.
      * destruct Hf as (_ & ->). apply (co_document Hco). exact Hk.
      * split; [exact P1|]. destruct Hs. cbn [parser]. lia.
      * cbn. lia.
    + assert (HE : ~ impossible (RJiterError e)) by (apply not_impossible; discriminate).
      destruct (err_type e) as [j| | |] eqn:Ee; try exact HE. destruct j; try exact HE. change (pos_eqb Top Top) with true. cbv iota.
      destruct (method_failed c q _ _ _ _ _ (parser s) r e m_peek peek_reined ltac:(lia) (proj1 Hs) E ltac:(right; left; unfold is_io; rewrite Ee; reflexivity)) as ((V' & C' & _) & _).
      destruct (finish_spec r V' ltac:(lia)) as (r' & v & E' & _). unfold parse. cbn [parser]. rewrite E'. cbn [obind].
      destruct v as [v|e']; [exact I|]. apply not_impossible. discriminate.
  - eapply advances_vbind; [apply (object_goes ObjectBegin s n); auto; exists es; auto|]. intros s1 p (H1 & H2 & H3 & H4 & H5). cbn [advances].
    split; [exact H1|]. split; [apply H2|]. intros A. left. specialize (H5 A). destruct p; cbn; congruence || lia.
  - eapply advances_vbind; [apply (object_goes ObjectMiddle s n); auto; exists es; auto|]. intros s1 p (H1 & H2 & H3 & H4 & H5). cbn [advances].
    split; [exact H1|]. split; [apply H2|]. intros A. left. specialize (H5 A). destruct p; cbn; congruence || lia.
  - destruct (method_ready c q _ _ _ _ _ (parser s) m_peek ltac:(lia) (proj1 Hs)) as (r & v & E & P). rewrite E. cbn [obind]. destruct v as [x|e].
    + destruct P as (P1 & P2 & _). apply value_goes with es n; auto.
      * split; [exact P1|]. destruct Hs. cbn [parser]. lia.
      * cbn. lia.
    + assert (HE : ~ impossible (RJiterError e)) by (apply not_impossible; discriminate).
      destruct (err_type e) as [j| | |]; try exact HE. destruct j; try exact HE. apply not_impossible. discriminate.
  - eapply advances_vbind; [apply (array_goes ArrayBegin s n); auto; exists es; auto|]. intros s1 [[x|] p] (H1 & H2 & H3 & H4); cbn [fst snd] in *.
    + destruct H4 as (-> & H4). destruct H1 as (es1 & Hf1 & Hn1 & Hk1). apply value_goes with es1 (left (parser s1)); auto.
      * destruct Hf1 as (_ & es2 & ->). apply (co_element Hco). exact Hk1.
      * split; [apply H2|apply le_n].
      * cbn. lia.
    + cbn [advances]. split; [exact H1|]. split; [apply H2|]. intros A. left. specialize (H4 A). destruct H3 as [-> | [-> | ->]]; cbn; lia.
  - eapply advances_vbind; [apply (array_goes ArrayMiddle s n); auto; exists es; auto|]. intros s1 [[x|] p] (H1 & H2 & H3 & H4); cbn [fst snd] in *.
    + destruct H4 as (-> & H4). destruct H1 as (es1 & Hf1 & Hn1 & Hk1). apply value_goes with es1 (left (parser s1)); auto.
      * destruct Hf1 as (_ & es2 & ->). apply (co_element Hco). exact Hk1.
      * split; [apply H2|apply le_n].
      * cbn. lia.
    + cbn [advances]. split; [exact H1|]. split; [apply H2|]. intros A. left. specialize (H4 A). destruct H3 as [-> | [-> | ->]]; cbn; lia.
Qed.
(** Where the parser cannot go on the scan ends. *)
Lemma halted_ends fuel p s : stands p s -> ready c q (parser s) -> settled p -> halted (parser s) -> scan_loop cb o (S fuel) true p s <> Diverge.
Proof.
  intros (es & (Hi & Hf) & Hn & Hk) HR Hp Hh. destruct Hstop as [Ho|Hno]; [|destruct (Hno _ Hh)]. cbn [scan_loop]. rewrite Ho.
  destruct Hp as [-> | [-> | ->]].
  - discriminate.
  - change (true && true && pos_eqb ObjectMiddle Top)%bool with false. cbv iota. cbn [scan_iter]. unfold handle_object.
    change (pos_eqb ObjectMiddle ObjectBegin) with false. cbv beta zeta iota. destruct Hf as (k & es' & ->).
    unfold look_up_end. rewrite (stack_context _ _ _ Hn). cbn [obind]. pose proof (co_key_end Hco k (full es') (user s) Hk) as H.
    unfold context_for in H. cbn [app] in *.
    destruct (find_end_action cb PNone _ (user s)) as [u1 a]. cbn [obind stack parser user].
    destruct (stack_pop _ _ _ _ _ Hn) as (p & Ep & Hp). rewrite Ep. cbn [obind].
    pose proof (acted_goes a (mkS (parser s) u1 p) (K Inside (full es')) (left (parser s)) H ltac:(split; [exact HR|apply le_n])) as H3.
    destruct (run_end_action a (mkS (parser s) u1 p)) as [[s2 [v|e]]| |] eqn:Ea; cbn [goes] in H3; try discriminate; [|destruct H3].
    assert (Er : parser s2 = parser s).
    { clear - Ea. unfold run_end_action in Ea. destruct a as [act|]; [|injection Ea as <- _; reflexivity]. cbn [user] in Ea. destruct (act u1) as [[u3 [[]|m]]| |]; cbn in Ea; try discriminate. injection Ea as <- _. reflexivity. }
    cbn [sbind]. unfold parse. rewrite Er. destruct (method_ready c q _ _ _ _ _ (parser s) m_next_key_bytes ltac:(lia) HR) as (r & w & E & P).
    rewrite E. cbn [obind]. destruct w as [w|e]; [destruct (co_halted_object Hco _ _ _ Hh E)|]. discriminate.
  - change (true && true && pos_eqb ArrayMiddle Top)%bool with false. cbv iota. cbn [scan_iter]. unfold handle_array.
    change (pos_eqb ArrayMiddle ArrayBegin) with false. cbv beta zeta iota. unfold parse.
    destruct (method_ready c q _ _ _ _ _ (parser s) m_array_step ltac:(lia) HR) as (r & w & E & P).
    rewrite E. cbn [obind]. destruct w as [w|e]; [destruct (co_halted_array Hco _ _ _ Hh E)|]. discriminate.
Qed.
Definition concludes (m fuel : nat) (x : sres B unit) : Prop :=
  match x with
  | Done (_, Ok _) => True
  | Done (_, Err e) => ~ impossible e
  | Panic => steady = false
  | Diverge => strict = true -> fuel <= m
  end.
Lemma loop_goes fuel : forall progressed pos s, stands pos s -> ready c q (parser s) ->
  concludes (weighs pos (left (parser s))) fuel (scan_loop cb o fuel progressed pos s).
Proof.
  induction fuel as [|fuel IH]; intros progressed pos s Hst HR; [intros _; lia|]. cbn [scan_loop].
  destruct (progressed && stop_early o && pos_eqb pos Top)%bool; [exact I|].
  pose proof (iter_goes pos s (left (parser s)) Hst ltac:(split; [exact HR|apply le_n])) as H.
  destruct (scan_iter cb o pos s) as [[s1 [p|r]]| |]; cbn [advances] in H.
  - destruct H as (H1 & H2 & H3). specialize (IH true p s1 H1 H2). destruct (scan_loop cb o fuel true p s1) as [[s2 [v|e]]| |] eqn:E; cbn [concludes] in *; auto.
    intros A. specialize (IH A). destruct (H3 A) as [H4|(H4 & H5 & H6)]; [lia|].
    assert (fuel = 0); [|lia]. destruct fuel as [|fuel]; [reflexivity|exfalso]. revert E. apply (halted_ends fuel p s1); assumption.
  - cbn [concludes]. destruct r; auto.
  - exact H.
  - destruct H.
Qed.
End Ends.

(** If no callback stops the parser. *)
Definition no_halt (r : rj) : Prop := False.
Theorem scan_goes {B} c q strict steady K (cb : callbacks B) o d fuel s es :
  cooperative c q strict steady no_halt K cb -> 8 <= c -> Forall (fun t => 1 <= len t) (sse_tokens o) -> (sse_tokens o = [] \/ q = true) ->
  ready c q (parser s) -> stack_of d (stack s) es -> K Between (top_entry :: es) (user s) ->
  concludes strict steady (2 * left (parser s) + 1) fuel (scan cb o fuel s).
Proof.
  intros Hco Hc Ht Hq HR Hst Hk. destruct (scan_enters cb o d s es Hst) as (p & E). destruct (admit_name d (path_of es) (bs "#top")).
  - rewrite E. cbn [concludes]. apply not_impossible. discriminate.
  - destruct E as (Hp & E). rewrite E. apply (loop_goes c q strict steady no_halt K cb Hco o d es Hc Ht Hq (or_intror (fun _ H => H)) fuel false Top (mkS (parser s) (user s) p)); [|exact HR].
    exists []. split; [split; [constructor|reflexivity]|]. split; [exact Hp|exact Hk].
Qed.
