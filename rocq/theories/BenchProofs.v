(** Proofs about the benchmark program. *)
From Verif Require Import Base Buffer Jiter RJiter RJiterSpec ScanSpec ValueSpec DdbSpec ConvSpec Cli Bench BenchSpec.
From Verif Require Import RJiterLookProofs RJiterLongProofs ScanTokens ScanParser ScanTop IdProofs Transducer N2dProofs TwinConv.
From Coq Require Import Lia.
Local Opaque default_capacity.

(** ** Maps *)
Lemma beq_refl' k : beq k k = true.
Proof. induction k as [|x k IH]; [reflexivity|]. cbn [beq]. rewrite N.eqb_refl. exact IH. Qed.
Lemma insert_new {X} k (x : X) m : ~ In k (map fst m) -> insert k x m = m ++ [(k, x)].
Proof.
  induction m as [|[k' x'] m IH]; intros H; [reflexivity|]. cbn [insert map fst] in *. destruct (beq k k') eqn:E.
  - apply beq_eq in E. destruct H. left. symmetry. exact E.
  - cbn [app]. rewrite IH; [reflexivity|]. intros Hi. apply H. right. exact Hi.
Qed.
(** ** Texts *)
Definition bland (t : bytes) : Prop := Forall (fun x => x <> QUOTE /\ x <> BACKSLASH /\ (32 <= x < 128)%N) t.
Lemma bland_by t : forallb (fun x => negb (N.eqb x QUOTE) && negb (N.eqb x BACKSLASH) && (32 <=? x)%N && (x <? 128)%N) t = true -> bland t.
Proof.
  intros H. apply Forall_forall. intros x Hx. apply (proj1 (forallb_forall _ _) H) in Hx. apply andb_prop in Hx. destruct Hx as (Hx & H4). apply andb_prop in Hx. destruct Hx as (Hx & H3).
  apply andb_prop in Hx. destruct Hx as (H1 & H2). apply negb_true_iff, N.eqb_neq in H1, H2. apply N.leb_le in H3. apply N.ltb_lt in H4. auto.
Qed.
Lemma bland_is t : bland t -> string_is t t.
Proof.
  intros H. split; [|apply utf8_ascii; revert H; apply Forall_impl; intros x; lia].
  induction H as [|x t (Hq & Hb & Hx) _ IH]; constructor; auto; lia.
Qed.
Lemma bland_only t d : bland t -> string_is t d -> d = t.
Proof.
  intros H (Hj & _). induction Hj as [|x t d Hq Hb Hx _ IH|y c t d Hy _ _|a b c e n t d _ _ _ _ _|a b c e n a' b' c' e' m t d _ _ _ _ _ _ _];
    [reflexivity| |inversion H as [|? ? (_ & Hn & _) _]; subst; contradiction Hn; reflexivity..].
  inversion H; subst. f_equal. auto.
Qed.
Lemma number_bland t : number_text t -> bland t.
Proof.
  intros H. apply number_chars in H. revert H. apply Forall_impl. intros x Hx. unfold number_char in Hx. repeat (apply orb_prop in Hx; destruct Hx as [Hx|Hx]); 
    try (apply N.eqb_eq in Hx; subst x); try (unfold is_digit in Hx; apply andb_prop in Hx; destruct Hx as (H1 & H2); apply N.leb_le in H1, H2);
    (split; [|split]); unfold QUOTE, BACKSLASH; lia.
Qed.

Section Values.
Context {num : Type} (show_num : num -> bytes) (read_num : bytes -> option num).
Notation value := (value num).
Notation marshall := (marshall_value show_num).
Notation unmarshall := (unmarshall_value read_num).
Notation denotes := (denotes read_num).
Lemma value_induction (P : value -> Prop) :
  P SNull -> (forall b, P (SBool b)) -> (forall n, P (SNumber n)) -> (forall s, P (SString s)) ->
  (forall l, Forall P l -> P (SArray l)) -> (forall m, Forall (fun kx => P (snd kx)) m -> P (SObject m)) -> forall x, P x.
Proof.
  intros H1 H2 H3 H4 H5 H6. fix IH 1. intros [|b|n|s|l|m]; [exact H1|apply H2|apply H3|apply H4| |].
  - apply H5. induction l as [|x l IHl]; constructor; [apply IH|exact IHl].
  - apply H6. induction m as [|[k x] m IHm]; constructor; [apply IH|exact IHm].
Qed.
Lemma each_member_ok (f : value -> result value trouble) : forall m m' out, Forall2 (fun kx ky => fst kx = fst ky /\ f (snd kx) = Ok (snd ky)) m m' ->
  NoDup (map fst (out ++ m)) -> each_member f m out = Ok (out ++ m').
Proof.
  intros m m' out H. revert out. induction H as [|[k x] [k' y] m m' [Hk Hf] _ IH]; intros out Hn; [rewrite app_nil_r; reflexivity|].
  cbn [fst snd] in *. subst k'. cbn [each_member]. rewrite Hf. rewrite insert_new.
  - fold (each_member f). rewrite IH; [rewrite <- app_assoc; reflexivity|]. rewrite map_app. rewrite map_app in Hn. cbn [map fst] in *. rewrite map_app. cbn [map fst]. rewrite <- app_assoc. exact Hn.
  - rewrite map_app in Hn. cbn [map fst] in Hn. apply NoDup_remove_2 in Hn. intros Hi. apply Hn, in_or_app. left. exact Hi.
Qed.
Lemma each_item_ok (f : value -> result value trouble) : forall l l' out, Forall2 (fun x y => f x = Ok y) l l' -> each_item f l out = Ok (out ++ l').
Proof.
  intros l l' out H. revert out. induction H as [|x y l l' Hf _ IH]; intros out; [rewrite app_nil_r; reflexivity|].
  cbn [each_item]. rewrite Hf. fold (each_item f). rewrite IH, <- app_assoc. reflexivity.
Qed.

(** ** There *)
Fixpoint mark (x : value) : value :=
  match x with
  | SNull => SObject [(bs "NULL", SBool true)]
  | SBool b => SObject [(bs "BOOL", SBool b)]
  | SNumber n => SObject [(bs "N", SString (show_num n))]
  | SString s => SObject [(bs "S", SString s)]
  | SArray l => SObject [(bs "L", SArray (map mark l))]
  | SObject m => SObject [(bs "M", SObject (map (fun '(k, x) => (k, mark x)) m))]
  end.
Lemma keys_kept {X Y} (f : X -> Y) (m : list (bytes * X)) : map fst (map (fun '(k, x) => (k, f x)) m) = map fst m.
Proof. rewrite map_map. apply map_ext. intros [k x]. reflexivity. Qed.
Lemma members_ok (f : value -> result value trouble) (g : value -> value) m : NoDup (map fst m) -> Forall (fun kx => f (snd kx) = Ok (g (snd kx))) m ->
  each_member f m [] = Ok (map (fun '(k, x) => (k, g x)) m).
Proof.
  intros Hn H. rewrite (each_member_ok f m (map (fun '(k, x) => (k, g x)) m) []); [reflexivity| |exact Hn]. clear Hn.
  induction H as [|[k x] m Hx _ IH]; constructor; [split; [reflexivity|exact Hx]|exact IH].
Qed.
Lemma items_ok (f : value -> result value trouble) (g : value -> value) l : Forall (fun x => f x = Ok (g x)) l -> each_item f l [] = Ok (map g l).
Proof. intros H. rewrite (each_item_ok f l (map g l) []); [reflexivity|]. induction H; constructor; auto. Qed.
Lemma proper_items l : fold_right (fun x P => proper x /\ P) True l <-> Forall (@proper num) l.
Proof. induction l as [|x l IH]; cbn [fold_right]; [split; auto|]. rewrite IH. split; [intros [? ?]; constructor; auto|intros H; inversion H; auto]. Qed.
Lemma proper_members (m : list (bytes * value)) : fold_right (fun '(_, x) P => proper x /\ P) True m <-> Forall (fun kx => proper (snd kx)) m.
Proof. induction m as [|[k x] m IH]; cbn [fold_right]; [split; auto|]. rewrite IH. split; [intros [? ?]; constructor; auto|intros H; inversion H; auto]. Qed.
Lemma legible_items l : fold_right (fun x P => legible show_num read_num x /\ P) True l <-> Forall (legible show_num read_num) l.
Proof. induction l as [|x l IH]; cbn [fold_right]; [split; auto|]. rewrite IH. split; [intros [? ?]; constructor; auto|intros H; inversion H; auto]. Qed.
Lemma legible_members (m : list (bytes * value)) : fold_right (fun '(_, x) P => legible show_num read_num x /\ P) True m <-> Forall (fun kx => legible show_num read_num (snd kx)) m.
Proof. induction m as [|[k x] m IH]; cbn [fold_right]; [split; auto|]. rewrite IH. split; [intros [? ?]; constructor; auto|intros H; inversion H; auto]. Qed.
Lemma Forall_both {X} (P Q R : X -> Prop) l : (forall x, P x -> Q x -> R x) -> Forall P l -> Forall Q l -> Forall R l.
Proof. intros H. induction 1 as [|x l Hx _ IH]; intros HQ; [constructor|]. inversion HQ; subst. constructor; auto. Qed.
Lemma marshall_ok x : proper x -> marshall x = Ok (mark x).
Proof.
  induction x as [|b|n|s|l IH|m IH] using value_induction; intros Hp; try reflexivity.
  - cbn [marshall_value]. rewrite (items_ok _ mark); [reflexivity|]. apply proper_items in Hp. revert IH Hp. apply Forall_both. auto.
  - cbn [marshall_value]. destruct Hp as (Hn & Hp). apply proper_members in Hp. rewrite (members_ok _ mark m Hn); [reflexivity|]. revert IH Hp. apply Forall_both. auto.
Qed.
Lemma to_ok m wrap : proper (SObject m) -> to_dynamodb show_num (SObject m) wrap =
  Ok (let o := SObject (map (fun '(k, x) => (k, mark x)) m) in if wrap then SObject [(bs "Item", o)] else o).
Proof.
  intros (Hn & Hp). apply proper_members in Hp. cbn [to_dynamodb]. rewrite (members_ok _ mark m Hn); [destruct wrap; reflexivity|].
  revert Hp. apply Forall_impl. intros [k x]. apply marshall_ok.
Qed.

(** ** And back *)
Lemma unmarshall_ok x : proper x -> legible show_num read_num x -> unmarshall (mark x) = Ok x.
Proof.
  induction x as [|b|n|s|l IH|m IH] using value_induction; intros Hp Hl; try reflexivity.
  - cbn [mark unmarshall_value]. cbn [legible] in Hl. change (parse_number read_num "N type must be string" (SString (show_num n)) = Ok (SNumber n)). cbn [parse_number]. rewrite Hl. reflexivity.
  - change (match each_item unmarshall (map mark l) [] with Err e => Err e | Ok out => Ok (SArray out) end = Ok (SArray l)).
    rewrite (each_item_ok _ _ l []); [reflexivity|]. apply proper_items in Hp. apply legible_items in Hl. clear -IH Hp Hl.
    induction IH as [|x l Hx _ IH]; [constructor|]. inversion Hp; inversion Hl; subst. constructor; auto.
  - change (match each_member unmarshall (map (fun '(k, x) => (k, mark x)) m) [] with Err e => Err e | Ok out => Ok (SObject out) end = Ok (SObject m)).
    destruct Hp as (Hn & Hp). rewrite (each_member_ok _ _ m []); [reflexivity| |cbn [app]; rewrite keys_kept; exact Hn]. apply proper_members in Hp. apply legible_members in Hl. clear -IH Hp Hl.
    induction IH as [|[k x] m Hx _ IH]; [constructor|]. inversion Hp; inversion Hl; subst. constructor; auto.
Qed.
Lemma back_ok m : proper (SObject m) -> legible show_num read_num (SObject m) ->
  each_member unmarshall (map (fun '(k, x) => (k, mark x)) m) [] = Ok m.
Proof.
  intros (Hn & Hp) Hl. rewrite (each_member_ok _ _ m []); [reflexivity| |cbn [app]; rewrite keys_kept; exact Hn].
  apply proper_members in Hp. apply legible_members in Hl. clear -Hp Hl. induction m as [|[k x] m IH]; [constructor|]. inversion Hp; inversion Hl; subst.
  constructor; auto. split; [reflexivity|]. apply unmarshall_ok; assumption.
Qed.
Lemma round_value x wrap : proper x -> legible show_num read_num x -> (exists m, x = SObject m) -> (wrap = false -> ~ only_item x) ->
  exists y, to_dynamodb show_num x wrap = Ok y /\ from_dynamodb read_num y = Ok x.
Proof.
  intros Hp Hl (m & ->) Hi. rewrite (to_ok m wrap Hp). eexists. split; [reflexivity|]. cbv zeta. destruct wrap.
  - cbn [from_dynamodb]. rewrite beq_refl'. rewrite (back_ok m Hp Hl). reflexivity.
  - cbn [from_dynamodb]. specialize (Hi eq_refl). pose proof (back_ok m Hp Hl) as H. destruct m as [|[k x] [|? ?]]; cbn [map] in *; [rewrite H; reflexivity| |rewrite H; reflexivity].
    destruct (beq k (bs "Item")) eqn:E; [|rewrite H; reflexivity]. apply beq_eq in E. subst k. destruct Hi. exists x. reflexivity.
Qed.

Lemma denotes_items l xs : (fix all l xs := match l, xs with [], [] => True | v :: l, x :: xs => denotes v x /\ all l xs | _, _ => False end) l xs <-> Forall2 denotes l xs.
Proof.
  revert xs. induction l as [|v l IH]; intros [|x xs]; try solve [split; [intros []|intros H; inversion H]]; [split; auto|]. rewrite IH. split; [intros [? ?]; constructor; auto|intros H; inversion H; auto].
Qed.
Definition member_is (kv : bytes * json) (dx : bytes * value) : Prop := string_is (fst kv) (fst dx) /\ denotes (snd kv) (snd dx).
Lemma denotes_members m ys : (fix all m ys := match m, ys with [], [] => True | (k, v) :: m, (d, x) :: ys => string_is k d /\ denotes v x /\ all m ys | _, _ => False end) m ys <-> Forall2 member_is m ys.
Proof.
  revert ys. induction m as [|[k v] m IH]; intros [|[d x] ys]; try solve [split; [intros []|intros H; inversion H]]; [split; auto|]. rewrite IH. unfold member_is.
  split; [intros (? & ? & ?); constructor; auto|intros H; inversion H; subst; cbn [fst snd] in *; tauto].
Qed.
Lemma denotes_array l x : denotes (JArray l) x <-> exists xs, x = SArray xs /\ Forall2 denotes l xs.
Proof.
  split; [destruct x as [| | | |xs|]; try solve [intros []]; intros H; apply denotes_items in H; eauto|]. intros (xs & -> & H). apply denotes_items. exact H.
Qed.
Lemma denotes_object m x : denotes (JObject m) x <-> exists ys, x = SObject ys /\ NoDup (map fst ys) /\ Forall2 member_is m ys.
Proof.
  split.
  - destruct x as [| | | | |ys]; try solve [intros []]; intros (Hn & H). apply denotes_members in H. eauto.
  - intros (ys & -> & Hn & H). split; [exact Hn|]. apply denotes_members. exact H.
Qed.
Lemma denotes_one k v d x : string_is k d -> denotes v x -> denotes (JObject [(k, v)]) (SObject [(d, x)]).
Proof. intros Hk Hv. apply denotes_object. eexists. split; [reflexivity|]. split; [constructor; [intros []|constructor]|]. constructor; [split; assumption|constructor]. Qed.
Lemma denotes_proper v : forall x, denotes v x -> proper x.
Proof.
  induction v as [v Ha|vs IH|ms IH] using json_induction; intros x H.
  - destruct v, x; try contradiction; exact I.
  - apply denotes_array in H. destruct H as (xs & -> & H). apply proper_items. revert xs H. induction IH as [|v vs Hv _ IHl]; intros xs H; inversion H; subst; constructor; auto.
  - apply denotes_object in H. destruct H as (ys & -> & Hn & H). split; [exact Hn|]. clear Hn. apply proper_members. revert ys H.
    induction IH as [|[k v] ms Hv _ IHl]; intros ys H; inversion H as [|? ? ? ? [_ Hx] H']; subst; constructor; auto.
Qed.
Lemma canonical_items l : fold_right (fun v P => canonical show_num read_num v /\ P) True l <-> Forall (canonical show_num read_num) l.
Proof. induction l as [|x l IH]; cbn [fold_right]; [split; auto|]. rewrite IH. split; [intros [? ?]; constructor; auto|intros H; inversion H; auto]. Qed.
Lemma canonical_members (m : list (bytes * json)) : fold_right (fun '(_, v) P => canonical show_num read_num v /\ P) True m <-> Forall (fun kv => canonical show_num read_num (snd kv)) m.
Proof. induction m as [|[k x] m IH]; cbn [fold_right]; [split; auto|]. rewrite IH. split; [intros [? ?]; constructor; auto|intros H; inversion H; auto]. Qed.
Ltac literal := apply bland_is, bland_by; reflexivity.
Lemma marked_typed v : forall x, denotes v x -> canonical show_num read_num v -> denotes (typed v) (mark x).
Proof.
  induction v as [v Ha|vs IH|ms IH] using json_induction; intros x H Hc.
  - destruct v as [| | |t|t| |], x as [|b|n|s| |]; try contradiction; cbn [typed mark].
    + apply denotes_one; [literal|reflexivity].
    + apply denotes_one; [literal|exact H].
    + apply denotes_one; [literal|exact H].
    + destruct Hc as (Ht & Hc). rewrite (Hc n H). apply denotes_one; [literal|]. apply bland_is, number_bland, Ht.
    + apply denotes_one; [literal|exact H].
  - apply denotes_array in H. destruct H as (xs & -> & H). apply canonical_items in Hc. cbn [typed mark]. apply denotes_one; [literal|]. apply denotes_array. eexists. split; [reflexivity|].
    revert xs H Hc. induction IH as [|v vs Hv _ IHl]; intros xs H Hc; inversion H; inversion Hc; subst; constructor; auto.
  - apply denotes_object in H. destruct H as (ys & -> & Hn & H). apply canonical_members in Hc. cbn [typed mark]. apply denotes_one; [literal|]. apply denotes_object. eexists. split; [reflexivity|].
    split; [rewrite keys_kept; exact Hn|]. clear Hn.
    revert ys H Hc. induction IH as [|[k v] ms Hv _ IHl]; intros ys H Hc; inversion H as [|? [d x] ? ? [Hk Hx] H']; inversion Hc; subst; constructor; auto. split; [exact Hk|apply Hv; assumption].
Qed.
Lemma to_record ms x wrap : denotes (JObject ms) x -> canonical show_num read_num (JObject ms) ->
  exists y, to_dynamodb show_num x wrap = Ok y /\ denotes (record wrap (JObject ms)) y.
Proof.
  intros H Hc. pose proof (denotes_proper _ _ H) as Hp. pose proof (marked_typed _ _ H Hc) as Hm. apply denotes_object in H. destruct H as (ys & -> & Hn & H). rewrite (to_ok ys wrap Hp).
  eexists. split; [reflexivity|]. cbn [typed mark] in Hm. apply denotes_object in Hm. destruct Hm as (zs & Hz & _ & Hm). injection Hz as <-. inversion Hm as [|? ? ? ? [_ Ho] _]; subst. cbn [snd] in Ho.
  cbv zeta. cbn [record]. destruct wrap; [apply denotes_one; [literal|exact Ho]|exact Ho].
Qed.

(** ** DynamoDB values *)
Lemma key_is k d : bland k -> string_is k d -> d = k.
Proof. apply bland_only. Qed.
Lemma object_one k v x : bland k -> denotes (JObject [(k, v)]) x -> exists y, x = SObject [(k, y)] /\ denotes v y.
Proof.
  intros Hb H. apply denotes_object in H. destruct H as (ys & -> & _ & H). inversion H as [|? [d y] ? ? [Hk Hy] H']; subst. inversion H'; subst. cbn [fst snd] in *.
  apply key_is in Hk; [|exact Hb]. subst d. eauto.
Qed.
Lemma strings_pass l x : denotes (JArray (map JString l)) x -> exists xs, x = SArray xs.
Proof. intros H. apply denotes_array in H. destruct H as (xs & -> & _). eauto. Qed.
Lemma number_string t y : readable_number read_num t -> denotes (JString t) y -> exists n, read_num t = Some n /\ y = SString t.
Proof.
  intros (Ht & n & Hn) H. destruct y as [| | |d| |]; try contradiction. cbn in H. apply key_is in H; [|apply number_bland, Ht]. subst d. eauto.
Qed.
Definition unmarks (d : ddb) : Prop := forall y, denotes (ddb_json d) y -> readable_numbers read_num d -> exists x, unmarshall y = Ok x /\ denotes (plain d) x.
Ltac blank_key := apply bland_by; reflexivity.
Lemma ddb_ind' (P : ddb -> Prop) : (forall d, match d with DL _ | DM _ => False | _ => True end -> P d) -> (forall l, Forall P l -> P (DL l)) ->
  (forall ms, Forall (fun kd => P (snd kd)) ms -> P (DM ms)) -> forall d, P d.
Proof.
  intros H1 H2 H3. fix IH 1. intros [t|t|t|b| |l|l|l|l|ms]; try (apply H1; exact I).
  - apply H2. induction l as [|x l IHl]; constructor; [apply IH|exact IHl].
  - apply H3. induction ms as [|[k x] m IHm]; constructor; [apply IH|exact IHm].
Qed.
Lemma readable_items l : fold_right (fun d P => readable_numbers read_num d /\ P) True l <-> Forall (readable_numbers read_num) l.
Proof. induction l as [|x l IH]; cbn [fold_right]; [split; auto|]. rewrite IH. split; [intros [? ?]; constructor; auto|intros H; inversion H; auto]. Qed.
Lemma readable_members (m : list (bytes * ddb)) : fold_right (fun '(_, v) P => readable_numbers read_num v /\ P) True m <-> Forall (fun kv => readable_numbers read_num (snd kv)) m.
Proof. induction m as [|[k x] m IH]; cbn [fold_right]; [split; auto|]. rewrite IH. split; [intros [? ?]; constructor; auto|intros H; inversion H; auto]. Qed.
Lemma members_unmark ms : Forall (fun kd => unmarks (snd kd)) ms -> Forall (fun kd => readable_numbers read_num (snd kd)) ms -> forall ys, NoDup (map fst ys) ->
  Forall2 member_is (map (fun '(k, d) => (k, ddb_json d)) ms) ys ->
  exists zs, each_member unmarshall ys [] = Ok zs /\ denotes (JObject (map (fun '(k, d) => (k, plain d)) ms)) (SObject zs).
Proof.
  intros IH Hr ys Hn H.
  assert (exists zs, Forall2 (fun kx ky => fst kx = fst ky /\ unmarshall (snd kx) = Ok (snd ky)) ys zs /\ Forall2 member_is (map (fun '(k, d) => (k, plain d)) ms) zs) as (zs & H1 & H2).
  { clear Hn. revert ys H. induction IH as [|[k d] ms Hd _ IHl]; intros ys H; inversion H as [|? [e y] ? ? [Hk Hy] H']; inversion Hr; subst; [exists []; split; constructor|].
    cbn [fst snd] in *. destruct (IHl ltac:(assumption) _ H') as (zs & A & B). destruct (Hd y Hy ltac:(assumption)) as (x & Hx & Hp).
    exists ((e, x) :: zs). split; constructor; auto. split; assumption. }
  exists zs. split; [exact (each_member_ok unmarshall ys zs [] H1 Hn)|]. apply denotes_object. exists zs. split; [reflexivity|]. split; [|exact H2].
  replace (map fst zs) with (map fst ys); [exact Hn|]. clear -H1. induction H1 as [|? ? ? ? [Hk _] _ IH]; [reflexivity|]. cbn [map]. rewrite Hk, IH. reflexivity.
Qed.
Lemma all_unmark d : unmarks d.
Proof.
  induction d as [d Hd|l IH|ms IH] using ddb_ind'; intros y H Hr.
  - destruct d as [t|t|t|b| |l|l|l|l|ms]; try contradiction; cbn [ddb_json] in H; (apply object_one in H; [|blank_key]); destruct H as (x & -> & H).
    + exists x. split; [reflexivity|exact H].
    + exists x. split; [reflexivity|exact H].
    + destruct (number_string t x Hr H) as (n & Hn & ->). exists (SNumber n). split; [|exact Hn].
      change (parse_number read_num "N type must be string" (SString t) = Ok (SNumber n)). cbn [parse_number]. rewrite Hn. reflexivity.
    + exists x. split; [reflexivity|exact H].
    + exists SNull. split; [reflexivity|exact I].
    + exists x. split; [reflexivity|exact H].
    + exists x. split; [reflexivity|exact H].
    + apply denotes_array in H. destruct H as (xs & -> & H). cbn [readable_numbers] in Hr.
      assert (exists zs, Forall2 (fun x y => parse_number read_num "NS items must be strings" x = Ok y) xs zs /\ Forall2 denotes (map JNumber l) zs) as (zs & H1 & H2).
      { revert xs H. induction Hr as [|t l Ht _ IHl]; intros xs H; inversion H as [|? y ? ? Hy H']; subst; [exists []; split; constructor|].
        destruct (IHl _ H') as (zs & A & B). destruct (number_string t y Ht Hy) as (n & Hn & ->). exists (SNumber n :: zs). split; constructor; auto. cbn [parse_number]. rewrite Hn. reflexivity. }
      exists (SArray zs). split; [|apply denotes_array; eauto].
      change (match each_item (parse_number read_num "NS items must be strings") xs [] with Err e => Err e | Ok out => Ok (SArray out) end = Ok (SArray zs)). rewrite (each_item_ok _ xs zs [] H1). reflexivity.
  - cbn [ddb_json] in H. apply object_one in H; [|blank_key]. destruct H as (x & -> & H). apply denotes_array in H. destruct H as (xs & -> & H). apply readable_items in Hr.
    assert (exists zs, Forall2 (fun x y => unmarshall x = Ok y) xs zs /\ Forall2 denotes (map plain l) zs) as (zs & H1 & H2).
    { revert xs H. induction IH as [|d l Hd _ IHl]; intros xs H; inversion H as [|? y ? ? Hy H']; inversion Hr; subst; [exists []; split; constructor|].
      destruct (IHl ltac:(assumption) _ H') as (zs & A & B). destruct (Hd y Hy ltac:(assumption)) as (x & Hx & Hp). exists (x :: zs). split; constructor; auto. }
    exists (SArray zs). split; [|apply denotes_array; eauto].
    change (match each_item unmarshall xs [] with Err e => Err e | Ok out => Ok (SArray out) end = Ok (SArray zs)). rewrite (each_item_ok _ xs zs [] H1). reflexivity.
  - cbn [ddb_json] in H. apply object_one in H; [|blank_key]. destruct H as (x & -> & H). apply denotes_object in H. destruct H as (ys & -> & Hn & H). apply readable_members in Hr.
    destruct (members_unmark ms IH Hr ys Hn H) as (zs & E & Hz). exists (SObject zs). split; [|exact Hz].
    change (match each_member unmarshall ys [] with Err e => Err e | Ok out => Ok (SObject out) end = Ok (SObject zs)). rewrite E. reflexivity.
Qed.
Lemma from_item wrapped ms y : denotes (item_json wrapped ms) y -> Forall (fun kd => readable_numbers read_num (snd kd)) ms -> (wrapped = false -> ~ only_item y) ->
  exists x, from_dynamodb read_num y = Ok x /\ denotes (plain_item ms) x.
Proof.
  intros H Hr Hi. assert (HU : Forall (fun kd => unmarks (snd kd)) ms) by (apply Forall_forall; intros [k d] _; apply all_unmark).
  unfold item_json in H. destruct wrapped.
  - apply object_one in H; [|blank_key]. destruct H as (x & -> & H). apply denotes_object in H. destruct H as (ys & -> & Hn & H).
    destruct (members_unmark ms HU Hr ys Hn H) as (zs & E & Hz). exists (SObject zs). split; [|exact Hz]. cbn [from_dynamodb]. rewrite beq_refl', E. reflexivity.
  - specialize (Hi eq_refl). apply denotes_object in H. destruct H as (ys & -> & Hn & H). destruct (members_unmark ms HU Hr ys Hn H) as (zs & E & Hz). exists (SObject zs). split; [|exact Hz].
    cbn [from_dynamodb]. destruct ys as [|[k x] [|? ?]]; [rewrite E; reflexivity| |rewrite E; reflexivity].
    destruct (beq k (bs "Item")) eqn:Ek; [|rewrite E; reflexivity]. apply beq_eq in Ek. subst k. destruct Hi. exists x. reflexivity.
Qed.
End Values.
