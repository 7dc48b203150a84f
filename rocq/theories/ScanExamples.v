(** Texts and tactics for the examples. *)
From Verif Require Import Base U8Pool Buffer BufferSpec Jiter RJiter RJiterSpec Scan ScanSpec.

Definition lead (l : bytes) : bytes := firstn (run_length json_ws l) l.
Definition behind (l : bytes) : bytes := skipn (run_length json_ws l) l.
Ltac now_spaces := solve [repeat (constructor; [unfold space; auto 6|]); constructor].
Ltac now_text := solve [eexists; repeat first
  [ eapply jt_escape; [reflexivity|] | eapply jt_char; [discriminate|discriminate|vm_compute; discriminate|] ]; apply jt_nil].
Definition dots (l : bytes) : bytes := firstn (run_length is_digit l) l.
Definition part_sign (t : bytes) : bytes := match t with 45%N :: _ => [45%N] | _ => [] end.
Definition part_int (t : bytes) : bytes := dots (skipn (len (part_sign t)) t).
Definition part_frac (t : bytes) : bytes :=
  match skipn (len (part_sign t ++ part_int t)) t with 46%N :: q => 46%N :: dots q | _ => [] end.
Definition part_exp (t : bytes) : bytes := skipn (len (part_sign t ++ part_int t ++ part_frac t)) t.
Definition exp_sign (q : bytes) : bytes := match q with 43%N :: _ => [43%N] | 45%N :: _ => [45%N] | _ => [] end.
Ltac now_digits := solve [repeat (constructor; [split; vm_compute; discriminate|]); constructor].
Ltac now_integer :=
  lazymatch goal with
  | |- number_text ?t =>
      let s := eval vm_compute in (part_sign t) in let i := eval vm_compute in (part_int t) in
      let f := eval vm_compute in (part_frac t) in let e := eval vm_compute in (part_exp t) in
      exists s, i, f, e;
      split; [reflexivity|]; split; [(left; reflexivity) || (right; reflexivity)|]; split; [|split];
      [ (left; reflexivity) || (right; eexists _, _; split; [reflexivity|]; split; [split; vm_compute; discriminate|now_digits])
      | (left; reflexivity) || (right; eexists; split; [reflexivity|]; split; [discriminate|now_digits])
      | (left; reflexivity) ||
        (let q := eval vm_compute in (skipn 1 e) in let g := eval vm_compute in (exp_sign q) in let h := eval vm_compute in (skipn (len g) q) in
         right; exists (hd 0%N e), g, h; split; [reflexivity|]; split; [vm_compute; tauto|]; split; [tauto|split; [discriminate|now_digits]]) ]
  end.
(** The key behind an opening brace (without escapes). *)
Definition key_part (l : bytes) : bytes := firstn (run_length (fun x => negb (N.eqb x QUOTE)) (skipn 1 l)) (skipn 1 l).
Ltac now_layout :=
  cbn; lazymatch goal with
  | |- True => exact I
  | |- _ <> [] => discriminate
  | |- _ /\ _ => split; [vm_compute; lia|discriminate]
  | |- _ < _ => vm_compute; lia
  | |- filled_text _ _ =>
      (left; left; split; [solve [repeat (constructor; [discriminate|]); constructor]|vm_compute; reflexivity]) ||
      (left; right; split; [reflexivity|]; split; [solve [repeat constructor]|now_text]) ||
      (right; split; [vm_compute; reflexivity|]; split; [discriminate|now_text])
  | |- copied_text _ _ => 
      (left; split; [solve [repeat (constructor; [discriminate|]); constructor]|vm_compute; reflexivity]) ||
      (right; split; [reflexivity|]; split; [solve [repeat constructor]|now_text])
  | |- true = true \/ _ => left; reflexivity
  | |- false = true \/ _ \/ (exists k w r, ?l = _ /\ _) =>
      right; first [left; first [right; reflexivity|left; solve [unfold space; auto 6]]|
        right; let k := eval vm_compute in (key_part l) in let w := eval vm_compute in (lead (skipn (2 + len k) l)) in
        let r := eval vm_compute in (skipn 1 (behind (skipn (2 + len k) l))) in
        exists k, w, r; split; [reflexivity|]; split; [now_text|]; split; [now_spaces|vm_compute; lia] ]
  | |- _ \/ _ => right; (right; reflexivity) || (left; unfold space; auto 6)
  end.
Ltac cut_ l f := eval vm_compute in (f l).
Ltac now_value :=
  lazymatch goal with
  | |- value_at ?P ?b JNull ?l _ => let r := cut_ l (fun z : bytes => skipn 4 z) in exact (at_null P b r)
  | |- value_at ?P ?b JTrue ?l _ => let r := cut_ l (fun z : bytes => skipn 4 z) in exact (at_true P b r)
  | |- value_at ?P ?b JFalse ?l _ => let r := cut_ l (fun z : bytes => skipn 5 z) in exact (at_false P b r)
  | |- value_at ?P ?b (JNumber ?t) ?l _ => let r := cut_ l (fun z : bytes => skipn (len t) z) in
      refine (at_number P b t r _ _ _); [now_integer|vm_compute; reflexivity|now_layout]
  | |- value_at ?P ?b (JString ?t) ?l _ => let r := cut_ l (fun z : bytes => skipn (2 + len t) z) in
      refine (at_string P b t r _ _); [now_text|now_layout]
  | |- value_at ?P ?b (JArray []) ?l _ =>
      let w := cut_ l (fun z : bytes => lead (skipn 1 z)) in let r := cut_ l (fun z : bytes => skipn 1 (behind (skipn 1 z))) in
      refine (at_array_empty P b w r _); now_spaces
  | |- value_at ?P ?b (JArray (?v :: ?vs)) ?l _ =>
      let w := cut_ l (fun z : bytes => lead (skipn 1 z)) in let r := cut_ l (fun z : bytes => behind (skipn 1 z)) in
      refine (at_array P b w v vs r _ _ _ _ _); [now_spaces|now_value|now_items]
  | |- value_at ?P ?b (JObject []) ?l _ =>
      let w := cut_ l (fun z : bytes => lead (skipn 1 z)) in let r := cut_ l (fun z : bytes => skipn 1 (behind (skipn 1 z))) in
      refine (at_object_empty P b w r _ _); [now_spaces|now_layout]
  | |- value_at ?P ?b (JObject ((?k, ?v) :: ?ms)) ?l _ =>
      let w := cut_ l (fun z : bytes => lead (skipn 1 z)) in
      let w1 := cut_ l (fun z : bytes => lead (skipn (2 + len k) (behind (skipn 1 z)))) in
      let l2 := cut_ l (fun z : bytes => skipn 1 (behind (skipn (2 + len k) (behind (skipn 1 z))))) in
      let w2 := cut_ l2 (fun z : bytes => lead z) in
      let r := cut_ l2 (fun z : bytes => behind z) in
      refine (at_object P b w k w1 w2 v ms r _ _ _ _ _ _ _ _ _ _); [now_spaces|now_text|now_spaces|now_layout|now_spaces|now_layout|now_value|now_members]
  end
with now_items :=
  lazymatch goal with
  | |- items_at ?P [] ?l _ =>
      let w := cut_ l (fun z : bytes => lead z) in let r := cut_ l (fun z : bytes => skipn 1 (behind z)) in
      refine (items_end P w r _); now_spaces
  | |- items_at ?P (?v :: ?vs) ?l _ =>
      let w := cut_ l (fun z : bytes => lead z) in let w2 := cut_ l (fun z : bytes => lead (skipn 1 (behind z))) in
      let r := cut_ l (fun z : bytes => behind (skipn 1 (behind z))) in
      refine (items_more P w w2 v vs r _ _ _ _ _ _); [now_spaces|now_spaces|now_value|now_items]
  end
with now_members :=
  lazymatch goal with
  | |- members_at ?P [] ?l _ =>
      let w := cut_ l (fun z : bytes => lead z) in let r := cut_ l (fun z : bytes => skipn 1 (behind z)) in
      refine (members_end P w r _); now_spaces
  | |- members_at ?P ((?k, ?v) :: ?ms) ?l _ =>
      let w := cut_ l (fun z : bytes => lead z) in
      let l0 := cut_ l (fun z : bytes => skipn 1 (behind z)) in
      let w0 := cut_ l0 (fun z : bytes => lead z) in
      let w1 := cut_ l0 (fun z : bytes => lead (skipn (2 + len k) (behind z))) in
      let l2 := cut_ l0 (fun z : bytes => skipn 1 (behind (skipn (2 + len k) (behind z)))) in
      let w2 := cut_ l2 (fun z : bytes => lead z) in
      let r := cut_ l2 (fun z : bytes => behind z) in
      refine (members_more P w w0 k w1 w2 v ms r _ _ _ _ _ _ _ _ _ _); [now_spaces|now_spaces|now_text|now_spaces|now_layout|now_spaces|now_value|now_members]
  end.
(** [l] starts with the value. *)
Ltac now_document :=
  lazymatch goal with
  | |- document _ _ ?l _ => let w := cut_ l lead in let r := cut_ l behind in
      exists w, r; split; [vm_compute; reflexivity|]; split; [now_spaces|now_value]
  end.
Ltac now_documents :=
  lazymatch goal with
  | |- documents _ [] _ => apply docs_end; now_spaces
  | |- documents _ _ _ => eapply docs_more; [now_document|now_documents]
  end.

Definition ex_rj (i : bytes) (sc : list event) (n : nat) : rj := rj_new (mkReader i sc) (repeat 0%N n).
Definition ex_pool (bytes_ : nat) (slices_ : N) : pool :=
  match pool_new true (repeat 0%N bytes_) slices_ with Done (Ok p) => p | _ => mkPool 0 0 [] [] end.
Example ex_fresh : fresh (mkDims 5 40) (ex_pool 60 5).
Proof. exists true, (repeat 0%N 60). split; [vm_compute; reflexivity|]. split; [vm_compute; reflexivity|reflexivity]. Qed.
Definition ex_text : bytes := bs " { ""k"":[1, {""b"" : ""x""} ],""e"":{}}  null ".
Definition ex_values : list json :=
  [JObject [(bs "k", JArray [JNumber (bs "1"); JObject [(bs "b", JString (bs "x"))]]); (bs "e", JObject [])]; JNull].
Example ex_documents : documents (chunk_layout 12 true) ex_values ex_text.
Proof. unfold ex_values. let l := eval vm_compute in ex_text in change ex_text with l. now_documents. Qed.

(** No more than [pad] bytes of white space in front of a brace; [n] of them have been seen. *)
Fixpoint indented_from (pad n : nat) (l : bytes) : bool :=
  match l with
  | [] => true
  | x :: l' => if json_ws x then indented_from pad (S n) l'
               else ((if N.eqb x LBRACE then n <=? pad else true) && indented_from pad 0 l')%bool
  end.
Lemma space_ws x : space x -> json_ws x = true.
Proof. unfold space. intros [-> |[-> |[-> | ->]]]; reflexivity. Qed.
Lemma indented_front pad w b : spaces w -> forall n, indented_from pad n (w ++ LBRACE :: b) = true -> n + len w <= pad.
Proof.
  induction 1 as [|x w Hx _ IH]; intros n E.
  - cbn in E. apply andb_true_iff in E as (E & _). apply Nat.leb_le in E. cbn. lia.
  - cbn [app indented_from] in E. rewrite (space_ws x Hx) in E. apply IH in E. cbn [List.length]. unfold byte in *. lia.
Qed.
Lemma indented_check pad l : indented_from pad 0 l = true -> indented pad l.
Proof.
  intros H a w b. assert (HG : forall a n, indented_from pad n (a ++ w ++ LBRACE :: b) = true -> spaces w -> len w <= pad).
  { clear. induction a as [|x a IH]; intros n E Hw.
    - apply (indented_front pad w b Hw) in E. lia.
    - cbn [app indented_from] in E. destruct (json_ws x); [eapply IH; eauto|]. apply andb_true_iff in E as (_ & E). eapply IH; eauto. }
  intros ->. apply (HG a 0 H).
Qed.
