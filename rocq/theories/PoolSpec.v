(** Specification of the pool: operation histories and what an ordinary stack of byte strings
    answers. Only the operation alphabet and the answers mention the crate's interface;
    nothing here mentions descriptors or offsets. *)
From Verif Require Import Base U8Pool.

(** The operations a client can perform. An associated value is its byte representation. *)
Inductive op :=
| OPush (d : bytes)
| OPushAssoc (t : ty) (value d : bytes)
| OPop
| OPopAssoc (t : ty)
| OClear
| OLen
| OIsEmpty
| OGet (i : nat)
| OTop
| OGetAssoc (t : ty) (i : nat)
| OTopAssoc (t : ty)
| OTopAssocObj (t : ty)
| OTopAssocBytes (t : ty)
| OReplace (t : ty) (d : bytes).

Inductive answer :=
| ABytesRes (r : result bytes perror)
| AAssocRes (r : result (bytes * bytes) perror)
| AOpt (o : option bytes)
| AOptAssoc (o : option (bytes * bytes))
| ANat (n : nat)
| ABool (b : bool)
| AUnit.

(** Typing facts Rust guarantees: a value has the size of its type, alignments are positive. *)
Definition op_typed (o : op) : Prop :=
  match o with
  | OPushAssoc t value _ => len value = t_size t /\ 0 < t_align t
  | _ => True
  end.

(** Running one operation on the modelled pool. *)
Definition step (p : pool) (o : op) : outcome (pool * answer) :=
  match o with
  | OPush d => do (p', r) <- push p d; Done (p', ABytesRes r)
  | OPushAssoc t v d => do (p', r) <- push_assoc p t v d; Done (p', AAssocRes r)
  | OPop => do (p', r) <- pop p; Done (p', AOpt r)
  | OPopAssoc t => do (p', r) <- pop_assoc p t; Done (p', AOptAssoc r)
  | OClear => Done (pool_clear p, AUnit)
  | OLen => Done (p, ANat (pool_len p))
  | OIsEmpty => Done (p, ABool (pool_is_empty p))
  | OGet i => do r <- get p i; Done (p, AOpt r)
  | OTop => do r <- top p; Done (p, AOpt r)
  | OGetAssoc t i => do r <- get_assoc p t i; Done (p, AOptAssoc r)
  | OTopAssoc t => do r <- top_assoc p t; Done (p, AOptAssoc r)
  | OTopAssocObj t => do r <- top_assoc_obj p t; Done (p, AOpt r)
  | OTopAssocBytes t => do r <- top_assoc_bytes p t; Done (p, AOpt r)
  | OReplace t d => do (p', r) <- replace_top_assoc_bytes p t d; Done (p', ABytesRes r)
  end.

Fixpoint run (p : pool) (ops : list op) : outcome (pool * list answer) :=
  match ops with
  | [] => Done (p, [])
  | o :: ops' =>
      do (p1, a) <- step p o;
      do (p2, l) <- run p1 ops';
      Done (p2, a :: l)
  end.

(** A stored string seen as value of [size] bytes followed by data; [None] if it is too short. *)
Definition split_value (size : nat) (x : bytes) : option (bytes * bytes) :=
  if size <=? len x then Some (firstn size x, skipn size x) else None.

Definition last_opt (s : list bytes) : option bytes :=
  match rev s with [] => None | x :: _ => Some x end.

Definition obind_opt {A B} (o : option A) (f : A -> option B) : option B :=
  match o with Some a => f a | None => None end.

(** [stack_step s o a s']: an ordinary stack holding [s] (bottom first), asked to do [o], may answer [a]
    and then holds [s']. The pool is only free to choose whether an insertion succeeds.
    The last rule is the one deviation from a well-behaved stack (finding, see C07). *)
Inductive stack_step (s : list bytes) : op -> answer -> list bytes -> Prop :=
| st_push_ok d : stack_step s (OPush d) (ABytesRes (Ok d)) (s ++ [d])
| st_push_err d e : stack_step s (OPush d) (ABytesRes (Err e)) s
| st_pusha_ok t v d : stack_step s (OPushAssoc t v d) (AAssocRes (Ok (v, d))) (s ++ [v ++ d])
| st_pusha_err t v d e : stack_step s (OPushAssoc t v d) (AAssocRes (Err e)) s
| st_pop : stack_step s OPop (AOpt (last_opt s)) (removelast s)
| st_popa_some t v d :
    obind_opt (last_opt s) (split_value (t_size t)) = Some (v, d) ->
    stack_step s (OPopAssoc t) (AOptAssoc (Some (v, d))) (removelast s)
| st_popa_none t :
    obind_opt (last_opt s) (split_value (t_size t)) = None ->
    stack_step s (OPopAssoc t) (AOptAssoc None) s
| st_clear : stack_step s OClear AUnit []
| st_len : stack_step s OLen (ANat (List.length s)) s
| st_is_empty : stack_step s OIsEmpty (ABool (List.length s =? 0)) s
| st_get i : stack_step s (OGet i) (AOpt (nth_error s i)) s
| st_top : stack_step s OTop (AOpt (last_opt s)) s
| st_geta t i :
    stack_step s (OGetAssoc t i) (AOptAssoc (obind_opt (nth_error s i) (split_value (t_size t)))) s
| st_topa t :
    stack_step s (OTopAssoc t) (AOptAssoc (obind_opt (last_opt s) (split_value (t_size t)))) s
| st_topa_obj t :
    stack_step s (OTopAssocObj t)
      (AOpt (option_map fst (obind_opt (last_opt s) (split_value (t_size t))))) s
| st_topa_bytes t :
    stack_step s (OTopAssocBytes t)
      (AOpt (option_map snd (obind_opt (last_opt s) (split_value (t_size t))))) s
| st_replace_ok t d v old :
    obind_opt (last_opt s) (split_value (t_size t)) = Some (v, old) ->
    stack_step s (OReplace t d) (ABytesRes (Ok d)) (removelast s ++ [v ++ d])
| st_replace_err t d e :
    (forall x m, e <> ValueTooLarge x m) ->
    stack_step s (OReplace t d) (ABytesRes (Err e)) s
| st_replace_clobber t d v old x m :
    obind_opt (last_opt s) (split_value (t_size t)) = Some (v, old) ->
    (65535 < N.of_nat (t_size t + len d))%N ->
    stack_step s (OReplace t d) (ABytesRes (Err (ValueTooLarge x m)))
      (removelast s ++ [v ++ firstn (len old) d]).

(** A whole history. *)
Inductive stack_run : list bytes -> list op -> list answer -> list bytes -> Prop :=
| sr_nil s : stack_run s [] [] s
| sr_cons s o a s1 os l s2 :
    stack_step s o a s1 -> stack_run s1 os l s2 -> stack_run s (o :: os) (a :: l) s2.

(** Pools a client can hold: created by [new] and then used in any way. *)
Definition reachable (p : pool) : Prop :=
  exists checks buffer lim p0 ops answers,
    pool_new checks buffer lim = Done (Ok p0) /\
    Forall op_typed ops /\
    run p0 ops = Done (p, answers).

(** Everything a client can see by indexed access. *)
Definition contents (p : pool) : list (outcome (option bytes)) :=
  map (get p) (seq 0 (pool_len p)).
Definition holds (p : pool) (s : list bytes) : Prop :=
  contents p = map (fun x => Done (Some x)) s.

(** Two pools no client can tell apart. *)
Definition same_answers (p q : pool) : Prop :=
  forall ops, Forall op_typed ops ->
    match run p ops, run q ops with
    | Done (_, l), Done (_, l') => l = l'
    | _, _ => False
    end.

(** The byte range of each stored item, bottom first, as (start, length). *)
Definition occupies (p : pool) (lay : list (nat * nat)) : Prop :=
  List.length lay = pool_len p /\
  (forall i st n, nth_error lay i = Some (st, n) ->
     st + n <= len (data p) /\
     exists c, slice (data p) st (st + n) = Some c /\ get p i = Done (Some c)) /\
  (forall i j st n st' n', i < j -> nth_error lay i = Some (st, n) ->
     nth_error lay j = Some (st', n') -> st + n <= st').

(** First byte behind the newest item. *)
Definition lay_end (lay : list (nat * nat)) : nat :=
  match rev lay with [] => 0 | (st, n) :: _ => st + n end.

(** What a push of [n] bytes must answer when the free area starts at [e]. *)
Definition push_verdict (lim : N) (cnt cap e n : nat) : option perror :=
  if (lim <=? N.of_nat cnt)%N then Some (SliceLimitExceeded lim)
  else if cap - e <? n then Some (BufferOverflow n (cap - e))
  else if (65535 <? N.of_nat e)%N then Some (ValueTooLarge (N.of_nat e) 65535)
  else if (65535 <? N.of_nat n)%N then Some (ValueTooLarge (N.of_nat n) 65535)
  else None.

(** Histories that use only the plain operations. *)
Definition plain_op (o : op) : bool :=
  match o with
  | OPush _ | OPop | OClear | OLen | OIsEmpty | OGet _ | OTop => true
  | _ => false
  end.

Definition total_length (s : list bytes) : nat := list_sum (map len s).

(** [stays_above n p ops p']: running [ops] leads from [p] to [p'], every intermediate pool keeps
    more than [n] items, and the item with number [n] is never the target of a replacement. *)
Inductive stays_above (n : nat) : pool -> list op -> pool -> Prop :=
| sa_nil p : n < pool_len p -> stays_above n p [] p
| sa_cons p o p1 a os p2 :
    n < pool_len p ->
    step p o = Done (p1, a) -> op_typed o ->
    (forall t d, o = OReplace t d -> n + 1 < pool_len p) ->
    stays_above n p1 os p2 -> stays_above n p (o :: os) p2.

(** [iterate f k x]: the iterator state after [k] calls of [next]. *)
Fixpoint iterate {A} (f : A -> A) (k : nat) (x : A) : A :=
  match k with 0 => x | S k' => iterate f k' (f x) end.

(** Element [k] of the list of consecutive pairs. *)
Definition nth_pair (s : list bytes) (k : nat) : option (bytes * bytes) :=
  match nth_error s (2 * k), nth_error s (2 * k + 1) with
  | Some a, Some b => Some (a, b)
  | _, _ => None
  end.

(** The address of data byte [off] of a pool whose buffer starts at address [base]
    (core.rs:48: the data area is the buffer behind the metadata). *)
Definition data_address (base : N) (p : pool) (off : nat) : N :=
  (base + N.of_nat (List.length (descriptor p)) + N.of_nat off)%N.
