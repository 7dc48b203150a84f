(** Proofs about callbacks that turn a tree walk into text: what is written is computed from the tree, by functions [tb], [te]
    that say what a begin or end callback writes, given a mode that is all the callbacks remember. *)
From Verif Require Import Base U8Pool Buffer BufferSpec Jiter RJiter RJiterSpec Scan ScanSpec IdSpec.
From Verif Require Import ScanTokens ScanParser ScanStack ScanProofs ScanTop ScanSse IdProofs.

Section Transducer.
Context {B M : Type} (outw : B -> writer) (mode : B -> M) (good : B -> Prop) (noted : B -> io_kind -> Prop) (E : bool).

(** ** Steps *)
Definition tstep := M -> option (bytes * M).
Definition t_then (a b : tstep) : tstep := fun m =>
  match a m with
  | Some (x, m1) => match b m1 with Some (y, m2) => Some (x ++ y, m2) | None => None end
  | None => None
  end.
Definition wrote (t : B) (p : bytes) (m : M) (t' : B) : Prop := spent (outw t) p (outw t') /\ mode t' = m /\ good t'.
Definition torn (t : B) (p : bytes) (t' : B) : Prop :=
  E = true \/ exists a b k, p = a ++ b /\ b <> [] /\ worn (outw t) a (outw t') k /\ noted t' k.

Lemma torn_more t p q t' : torn t p t' -> torn t (p ++ q) t'.
Proof.
  intros [H|(a & b & k & -> & Hb & Hs & H)]; [left; exact H|right]. exists a, (b ++ q), k. rewrite app_assoc. split; [reflexivity|].
  split; [destruct b; [contradiction|discriminate]|]. auto.
Qed.
Lemma torn_after t p q t1 t' : spent (outw t) p (outw t1) -> torn t1 q t' -> torn t (p ++ q) t'.
Proof.
  intros H [H2|(a & b & k & -> & Hb & Hs & H2)]; [left; exact H2|right]. exists (p ++ a), b, k. rewrite app_assoc. split; [reflexivity|].
  split; [exact Hb|]. split; [eapply worn_after; eassumption|exact H2].
Qed.
Lemma wrote_after t p q t1 m m' t' : wrote t p m t1 -> wrote t1 q m' t' -> wrote t (p ++ q) m' t'.
Proof. intros (A & _) (A' & B'). split; [eapply spent_trans; eassumption|exact B']. Qed.

(** ** The walk *)
Context (tb : pseudoname -> list bytes -> json -> M -> option (bytes * M * bool)) (te : pseudoname -> list bytes -> tstep).
Definition transducer : behaviour B := mkBehaviour
  (fun name path v t t' op => good t ->
     match tb name path v (mode t), op with
     | None, _ => True
     | Some _, None => False
     | Some (text, _, _), Some (OpError _) => torn t text t'
     | Some (text, m', consumed), Some OpNone => consumed = false /\ wrote t text m' t'
     | Some (text, m', consumed), Some ValueIsConsumed => consumed = true /\ wrote t text m' t'
     end)
  (fun name path t t' e => good t ->
     match te name path (mode t), e with
     | None, _ => True
     | Some _, None => False
     | Some (text, _), Some (Err _) => torn t text t'
     | Some (text, m'), Some (Ok _) => wrote t text m' t'
     end).

Definition t_begin (name : pseudoname) (path : list bytes) (v : json) (inside finish : tstep) : tstep := fun m =>
  match tb name path v m with
  | None => None
  | Some (a, m1, true) => t_then (fun _ => Some (a, m1)) finish m
  | Some (a, m1, false) => t_then (fun _ => Some (a, m1)) (t_then inside finish) m
  end.
Definition t_none : tstep := fun m => Some ([], m).
Fixpoint run_value (path : list bytes) (v : json) {struct v} : tstep := fun m =>
  match v with
  | JArray vs =>
      match tb PArray path v m with
      | None => None
      | Some (a, m1, true) => Some (a, m1)
      | Some (a, m1, false) =>
          t_then (fun _ => Some (a, m1)) (t_then
            ((fix go vs : tstep := match vs with [] => t_none | v :: vs => t_then (run_value (bs "#array" :: path) v) (go vs) end) vs)
            (te PArray path)) m
      end
  | JObject ms =>
      match tb PObject path v m with
      | None => None
      | Some (a, m1, true) => Some (a, m1)
      | Some (a, m1, false) =>
          t_then (fun _ => Some (a, m1)) (t_then
            ((fix go ms : tstep := match ms with [] => t_none | (k, v) :: ms =>
                t_then (t_begin PNone (k :: path) v (run_value (k :: path) v) (te PNone (k :: path))) (go ms) end) ms)
            (te PObject path)) m
      end
  | _ => match tb PAtom path v m with None => None | Some (a, m1, _) => Some (a, m1) end
  end.
Fixpoint run_items (path : list bytes) (vs : list json) : tstep :=
  match vs with [] => t_none | v :: vs => t_then (run_value path v) (run_items path vs) end.
Definition run_member (path : list bytes) (v : json) : tstep := t_begin PNone path v (run_value path v) (te PNone path).
Fixpoint run_members (path : list bytes) (ms : list (bytes * json)) : tstep :=
  match ms with [] => t_none | (k, v) :: ms => t_then (run_member (k :: path) v) (run_members path ms) end.
Lemma run_array path vs m : run_value path (JArray vs) m =
  match tb PArray path (JArray vs) m with
  | None => None
  | Some (a, m1, true) => Some (a, m1)
  | Some (a, m1, false) => t_then (fun _ => Some (a, m1)) (t_then (run_items (bs "#array" :: path) vs) (te PArray path)) m
  end.
Proof.
  cbn [run_value]. destruct (tb PArray path (JArray vs) m) as [[[a m1] [|]]|]; try reflexivity. f_equal. f_equal.
  induction vs as [|v vs IH]; [reflexivity|]. cbn [run_items]. rewrite <- IH. reflexivity.
Qed.
Lemma run_object path ms m : run_value path (JObject ms) m =
  match tb PObject path (JObject ms) m with
  | None => None
  | Some (a, m1, true) => Some (a, m1)
  | Some (a, m1, false) => t_then (fun _ => Some (a, m1)) (t_then (run_members path ms) (te PObject path)) m
  end.
Proof.
  cbn [run_value]. destruct (tb PObject path (JObject ms) m) as [[[a m1] [|]]|]; try reflexivity. f_equal. f_equal.
  induction ms as [|[k v] ms IH]; [reflexivity|]. cbn [run_members]. rewrite <- IH. reflexivity.
Qed.

Definition interrupted (t : B) (text : bytes) (t' : B) (why : stop) : Prop :=
  match why with
  | Crashed => False
  | ByAction _ => torn t text t'
  | Denied _ => exists a b, text = a ++ b /\ spent (outw t) a (outw t') /\ good t'
  | Broken => E = true
  end.
Definition moves (f : tstep) (t t' : B) (st : status) : Prop := good t -> forall text m', f (mode t) = Some (text, m') ->
  match st with Through => wrote t text m' t' | Stopped why => interrupted t text t' why end.
Lemma interrupted_more t p q t' why : interrupted t p t' why -> interrupted t (p ++ q) t' why.
Proof.
  destruct why; cbn [interrupted]; auto; [apply torn_more|]. intros (a & b & -> & H). exists a, (b ++ q). rewrite app_assoc. auto.
Qed.
Lemma interrupted_after t p q m t1 t' why : wrote t p m t1 -> interrupted t1 q t' why -> interrupted t (p ++ q) t' why.
Proof.
  intros (A & _). destruct why; cbn [interrupted]; auto; [apply torn_after, A|]. intros (a & b & -> & Hs & H). exists (p ++ a), b. rewrite app_assoc.
  split; [reflexivity|]. split; [eapply spent_trans; eassumption|exact H].
Qed.
Lemma interrupted_here t p x : good t -> interrupted t p t (Denied x).
Proof. intros H. exists [], p. split; [reflexivity|]. split; [apply spent_refl|exact H]. Qed.
Lemma moves_here_then t t' t1 st p m (f : tstep) : wrote t p m t1 -> moves f t1 t' st ->
  forall text m', t_then (fun _ => Some (p, m)) f (mode t) = Some (text, m') ->
  match st with Through => wrote t text m' t' | Stopped why => interrupted t text t' why end.
Proof.
  intros Hw Hm text m' Ht. unfold t_then in Ht. destruct (f m) as [[y m2]|] eqn:Ef; [|discriminate]. injection Ht as <- <-.
  destruct Hw as (A & Hmode & Hg). rewrite <- Hmode in Ef. specialize (Hm Hg _ _ Ef). destruct st as [|why].
  - eapply wrote_after; [split; [exact A|split; [exact Hmode|exact Hg]]|exact Hm].
  - eapply interrupted_after; [split; [exact A|split; [exact Hmode|exact Hg]]|exact Hm].
Qed.
Lemma moves_then f g t t1 t' st : moves f t t1 Through -> moves g t1 t' st -> moves (t_then f g) t t' st.
Proof.
  intros Hf Hgo Hg text m' Ht. unfold t_then in Ht. destruct (f (mode t)) as [[x m1]|] eqn:Ef; [|discriminate]. specialize (Hf Hg _ _ Ef).
  eapply moves_here_then; [exact Hf|exact Hgo|]. exact Ht.
Qed.
Lemma moves_stop f g t t' why : moves f t t' (Stopped why) -> moves (t_then f g) t t' (Stopped why).
Proof.
  intros Hf Hg text m' Ht. unfold t_then in Ht. destruct (f (mode t)) as [[x m1]|] eqn:Ef; [|discriminate]. destruct (g m1) as [[y m2]|]; [|discriminate].
  injection Ht as <- <-. apply interrupted_more. apply (Hf Hg _ _ Ef).
Qed.
Lemma moves_end name path t t' e : on_end transducer name path t t' e -> moves (te name path) t t' (ended e).
Proof.
  intros H Hg text m' Ht. cbn [on_end transducer] in H. specialize (H Hg). rewrite Ht in H. destruct e as [[[]|msg]|]; exact H.
Qed.
Lemma begin_stop name path v t t' op why : on_begin transducer name path v t t' op -> halt op = Some why -> good t ->
  forall a m1 b, tb name path v (mode t) = Some (a, m1, b) -> interrupted t a t' why.
Proof.
  intros H Hh Hg a m1 b Ht. cbn [on_begin transducer] in H. specialize (H Hg). rewrite Ht in H.
  destruct op as [[| |msg]|]; try discriminate; injection Hh as <-; exact H.
Qed.
Lemma begin_go name path v t t' : on_begin transducer name path v t t' (Some OpNone) -> good t ->
  forall a m1 b, tb name path v (mode t) = Some (a, m1, b) -> b = false /\ wrote t a m1 t'.
Proof. intros H Hg a m1 b Ht. cbn [on_begin transducer] in H. specialize (H Hg). rewrite Ht in H. exact H. Qed.
Lemma begin_over name path v t t' : on_begin transducer name path v t t' (Some ValueIsConsumed) -> good t ->
  forall a m1 b, tb name path v (mode t) = Some (a, m1, b) -> b = true /\ wrote t a m1 t'.
Proof. intros H Hg a m1 b Ht. cbn [on_begin transducer] in H. specialize (H Hg). rewrite Ht in H. exact H. Qed.
Lemma then_prefix a m1 (f : tstep) m text m' : t_then (fun _ => Some (a, m1)) f m = Some (text, m') -> exists q, text = a ++ q.
Proof. unfold t_then. destruct (f m1) as [[y m2]|]; [|discriminate]. intros H. injection H as <- _. eauto. Qed.

Lemma transducer_walk d :
  (forall path v t t' st, walk_value transducer d E path v t t' st -> moves (run_value path v) t t' st) /\
  (forall path vs t t' st, walk_items transducer d E path vs t t' st -> moves (run_items path vs) t t' st) /\
  (forall path ms t t' st, walk_members transducer d E path ms t t' st -> moves (run_members path ms) t t' st) /\
  (forall path v t t' st, walk_member transducer d E path v t t' st -> moves (run_member path v) t t' st).
Proof.
  apply (walk_ind _ transducer d E (fun path v => moves (run_value path v)) (fun path v => moves (run_items path v))
    (fun path v => moves (run_members path v)) (fun path v => moves (run_member path v))).
  - intros path v u HE Hg text m' Ht. exact HE.
  - intros path v u u' op Ha Hb Hg text m' Ht.
    assert (HR : exists b, tb PAtom path v (mode u) = Some (text, m', b)).
    { destruct v; try contradiction Ha; cbn [run_value] in Ht; destruct (tb PAtom path _ (mode u)) as [[[x y] z]|]; try discriminate; injection Ht as <- <-; eauto. }
    destruct HR as (b & HR). destruct (halt op) as [why|] eqn:Eh.
    + eapply begin_stop; eassumption.
    + destruct op as [[| |msg]|]; try discriminate; [eapply begin_go in Hb|eapply begin_over in Hb]; try eassumption; apply Hb.
  - intros path v u u' HE _ _ Hg text m' Ht. exact HE.
  - intros path vs u u' op why Hb Hw Hg text m' Ht. rewrite run_array in Ht. destruct (tb PArray path (JArray vs) (mode u)) as [[[a m1] b]|] eqn:Eb; [|discriminate].
    pose proof (begin_stop _ _ _ _ _ _ _ Hb Hw Hg _ _ _ Eb) as H. destruct b; [injection Ht as <- <-; exact H|].
    apply then_prefix in Ht as (q & ->). apply interrupted_more, H.
  - intros path vs u u' Hb Hg text m' Ht. rewrite run_array in Ht. destruct (tb PArray path (JArray vs) (mode u)) as [[[a m1] b]|] eqn:Eb; [|discriminate].
    destruct (begin_over _ _ _ _ _ Hb Hg _ _ _ Eb) as (-> & H). injection Ht as <- <-. exact H.
  - intros path vs u u' x Hb Hx Hg text m' Ht. rewrite run_array in Ht. destruct (tb PArray path (JArray vs) (mode u)) as [[[a m1] b]|] eqn:Eb; [|discriminate].
    destruct (begin_go _ _ _ _ _ Hb Hg _ _ _ Eb) as (-> & H). apply then_prefix in Ht as (q & ->). eapply interrupted_after; [exact H|]. apply interrupted_here, H.
  - intros path vs u u1 u2 why Hb Hx _ IH Hg text m' Ht. rewrite run_array in Ht. destruct (tb PArray path (JArray vs) (mode u)) as [[[a m1] b]|] eqn:Eb; [|discriminate].
    destruct (begin_go _ _ _ _ _ Hb Hg _ _ _ Eb) as (-> & H). apply (moves_here_then _ _ _ (Stopped why) _ _ _ H (moves_stop _ (te PArray path) _ _ _ IH) _ _ Ht).
  - intros path vs u u1 u2 u3 e Hb Hx _ IH He Hg text m' Ht. rewrite run_array in Ht. destruct (tb PArray path (JArray vs) (mode u)) as [[[a m1] b]|] eqn:Eb; [|discriminate].
    destruct (begin_go _ _ _ _ _ Hb Hg _ _ _ Eb) as (-> & H). apply (moves_here_then _ _ _ _ _ _ _ H (moves_then _ _ _ _ _ _ IH (moves_end _ _ _ _ _ He)) _ _ Ht).
  - intros path vs u u' op why Hb Hw Hg text m' Ht. rewrite run_object in Ht. destruct (tb PObject path (JObject vs) (mode u)) as [[[a m1] b]|] eqn:Eb; [|discriminate].
    pose proof (begin_stop _ _ _ _ _ _ _ Hb Hw Hg _ _ _ Eb) as H. destruct b; [injection Ht as <- <-; exact H|].
    apply then_prefix in Ht as (q & ->). apply interrupted_more, H.
  - intros path vs u u' Hb Hg text m' Ht. rewrite run_object in Ht. destruct (tb PObject path (JObject vs) (mode u)) as [[[a m1] b]|] eqn:Eb; [|discriminate].
    destruct (begin_over _ _ _ _ _ Hb Hg _ _ _ Eb) as (-> & H). injection Ht as <- <-. exact H.
  - intros path vs u u1 u2 why Hb _ IH Hg text m' Ht. rewrite run_object in Ht. destruct (tb PObject path (JObject vs) (mode u)) as [[[a m1] b]|] eqn:Eb; [|discriminate].
    destruct (begin_go _ _ _ _ _ Hb Hg _ _ _ Eb) as (-> & H). apply (moves_here_then _ _ _ (Stopped why) _ _ _ H (moves_stop _ (te PObject path) _ _ _ IH) _ _ Ht).
  - intros path vs u u1 u2 u3 e Hb _ IH He Hg text m' Ht. rewrite run_object in Ht. destruct (tb PObject path (JObject vs) (mode u)) as [[[a m1] b]|] eqn:Eb; [|discriminate].
    destruct (begin_go _ _ _ _ _ Hb Hg _ _ _ Eb) as (-> & H). apply (moves_here_then _ _ _ _ _ _ _ H (moves_then _ _ _ _ _ _ IH (moves_end _ _ _ _ _ He)) _ _ Ht).
  - intros path vs u HE Hg text m' Ht. exact HE.
  - intros path u Hg text m' Ht. injection Ht as <- <-. split; [apply spent_refl|auto].
  - intros path v vs u u' why _ IH. apply moves_stop, IH.
  - intros path v vs u u1 u2 st _ IH _ IH2. eapply moves_then; [exact IH|exact IH2].
  - intros path vs u HE Hg text m' Ht. exact HE.
  - intros path u Hg text m' Ht. injection Ht as <- <-. split; [apply spent_refl|auto].
  - intros path k v ms u x Hx Hg text m' Ht. apply interrupted_here, Hg.
  - intros path k v ms u u' why Hx _ IH. apply moves_stop, IH.
  - intros path k v ms u u1 u2 st Hx _ IH _ IH2. eapply moves_then; [exact IH|exact IH2].
  - intros path v u u' op why Hb Hw Hg text m' Ht. unfold run_member, t_begin in Ht. destruct (tb PNone path v (mode u)) as [[[a m1] b]|] eqn:Eb; [|discriminate].
    pose proof (begin_stop _ _ _ _ _ _ _ Hb Hw Hg _ _ _ Eb) as H. destruct b; apply then_prefix in Ht as (q & ->); apply interrupted_more, H.
  - intros path v u u1 u2 e Hb He Hg text m' Ht. unfold run_member, t_begin in Ht. destruct (tb PNone path v (mode u)) as [[[a m1] b]|] eqn:Eb; [|discriminate].
    destruct (begin_over _ _ _ _ _ Hb Hg _ _ _ Eb) as (-> & H). apply (moves_here_then _ _ _ _ _ _ _ H (moves_end _ _ _ _ _ He) _ _ Ht).
  - intros path v u u1 u2 why Hb _ IH Hg text m' Ht. unfold run_member, t_begin in Ht. destruct (tb PNone path v (mode u)) as [[[a m1] b]|] eqn:Eb; [|discriminate].
    destruct (begin_go _ _ _ _ _ Hb Hg _ _ _ Eb) as (-> & H). apply (moves_here_then _ _ _ (Stopped why) _ _ _ H (moves_stop _ _ _ _ _ IH) _ _ Ht).
  - intros path v u u1 u2 u3 e Hb _ IH He Hg text m' Ht. unfold run_member, t_begin in Ht. destruct (tb PNone path v (mode u)) as [[[a m1] b]|] eqn:Eb; [|discriminate].
    destruct (begin_go _ _ _ _ _ Hb Hg _ _ _ Eb) as (-> & H). apply (moves_here_then _ _ _ _ _ _ _ H (moves_then _ _ _ _ _ _ IH (moves_end _ _ _ _ _ He)) _ _ Ht).
Qed.
End Transducer.
