(** UTF-8 in, UTF-8 out: the texts of a value that stands in UTF-8 text are UTF-8, and so is what is made of them. *)
From Verif Require Import Base U8Pool Buffer BufferSpec Jiter RJiter RJiterSpec Scan ScanSpec IdSpec SoundSpec ConvSpec Conv NormalToDdb DdbToNormal IdTransform UnicodeSpec Utf8Spec.
From Verif Require Import RJiterLongProofs ScanProofs SoundResults Transducer ConvProofs D2nProofs N2dProofs ConvSound N2dSound UnicodeProofs ScanTop.

Definition ascii (l : bytes) : Prop := Forall (fun x => (x < 128)%N) l.
Lemma utf8_both (a b : bytes) : is_utf8 a -> is_utf8 b -> is_utf8 (a ++ b).
Proof. intros Ha Hb. apply (utf8_app _ a b (le_n _) Ha), Hb. Qed.
Lemma utf8_behind (a b : bytes) : ascii a -> is_utf8 (a ++ b) -> is_utf8 b.
Proof. intros Ha H. exact (proj1 (utf8_app _ a b (le_n _) (utf8_ascii a Ha)) H). Qed.
Lemma utf8_around (a b : bytes) (x : byte) : (x < 128)%N -> is_utf8 (a ++ x :: b) -> is_utf8 a /\ is_utf8 b.
Proof.
  intros Hx H. assert (Ha : is_utf8 a).
  { apply (utf8_cut _ a x b (le_n _) H). unfold leading, is_utf8_leading_byte. destruct (N.ltb_spec x 128); [reflexivity|lia]. }
  split; [exact Ha|]. apply (utf8_app _ a (x :: b) (le_n _) Ha) in H. apply (utf8_behind [x] b); [|exact H]. constructor; [exact Hx|constructor].
Qed.
Lemma spaces_ascii (w : bytes) : spaces w -> ascii w.
Proof. apply Forall_impl. unfold space. intros x H. lia. Qed.
Lemma blanks_ascii (w : bytes) : blanks w -> ascii w.
Proof. apply Forall_impl. unfold blank, space. intros x H. lia. Qed.
Lemma digits_ascii (w : bytes) : Forall digit w -> ascii w.
Proof. apply Forall_impl. unfold digit. intros x H. lia. Qed.

(** The texts in a value. *)
Fixpoint unicode (v : json) : Prop :=
  match v with
  | JNumber t => ascii t
  | JString t => is_utf8 t
  | JArray l => (fix all l := match l with [] => True | v :: l => unicode v /\ all l end) l
  | JObject m => (fix all m := match m with [] => True | (k, v) :: m => (is_utf8 k /\ unicode v) /\ all m end) m
  | _ => True
  end.
Lemma unicode_array l : unicode (JArray l) <-> Forall unicode l.
Proof. cbn [unicode]. induction l as [|v l IH]; split; intros H; try constructor; try apply H; try (apply IH, H); inversion H; subst; auto. apply IH; auto. Qed.
Lemma unicode_object m : unicode (JObject m) <-> Forall (fun kv => is_utf8 (fst kv) /\ unicode (snd kv)) m.
Proof.
  cbn [unicode]. induction m as [|[k v] m IH]; split; intros H; try constructor; try apply H; try (apply IH, H); inversion H; subst; auto. apply IH; auto.
Qed.
Lemma number_ascii (t : bytes) : number_text t -> ascii t.
Proof.
  intros (s & i & f & e & -> & Hs & Hi & Hf & He). unfold ascii. rewrite !Forall_app. split; [|split; [|split]].
  - destruct Hs as [->| ->]; repeat constructor.
  - destruct Hi as [->|(d & ds & -> & Hd & Hds)]; [repeat constructor|]. constructor; [lia|apply digits_ascii, Hds].
  - destruct Hf as [->|(ds & -> & _ & Hds)]; [constructor|]. constructor; [lia|apply digits_ascii, Hds].
  - destruct He as [->|(m & s' & ds & -> & Hm & Hs' & _ & Hds)]; [constructor|]. constructor; [lia|]. apply Forall_app. split; [|apply digits_ascii, Hds].
    destruct Hs' as [->|[->| ->]]; repeat constructor.
Qed.
Lemma words_ascii (l : bytes) : forallb (fun x => x <? 128)%N l = true -> ascii l.
Proof. rewrite forallb_forall. intros H. apply Forall_forall. intros x Hx. apply N.ltb_lt, H, Hx. Qed.
Lemma junk_behind (b : bool) (j l : bytes) : j = [] \/ (b = true /\ junk j) -> is_utf8 (j ++ l) -> is_utf8 l.
Proof.
  intros [->|(_ & [->|(k & w & -> & _ & Hw)])] H; [exact H| |].
  - apply (utf8_behind [LBRACE]); [repeat constructor|exact H].
  - replace ((LBRACE :: QUOTE :: k ++ QUOTE :: w) ++ l) with ([LBRACE; QUOTE] ++ k ++ QUOTE :: w ++ l) in H by (cbn [app]; rewrite <- app_assoc; reflexivity).
    apply utf8_behind in H; [|repeat constructor]. apply (utf8_around k) in H; [|reflexivity]. destruct H as (_ & H).
    exact (utf8_behind w l (spaces_ascii w Hw) H).
Qed.
Ltac word_behind l := apply (utf8_behind l); [apply words_ascii; reflexivity|assumption].
Lemma lax_unicode whole :
  (forall b v l r, lax_value whole b v l r -> is_utf8 l -> unicode v /\ is_utf8 r) /\
  (forall vs l r, lax_items whole vs l r -> is_utf8 l -> Forall unicode vs /\ is_utf8 r) /\
  (forall ms l r, lax_members whole ms l r -> is_utf8 l -> Forall (fun kv => is_utf8 (fst kv) /\ unicode (snd kv)) ms /\ is_utf8 r).
Proof.
  apply lax_ind; intros; rewrite ?unicode_array, ?unicode_object.
  - split; [exact I|]. word_behind (bs "null").
  - split; [exact I|]. word_behind (bs "true").
  - split; [exact I|]. word_behind (bs "false").
  - pose proof (number_ascii _ H) as Ha. split; [exact Ha|exact (utf8_behind _ _ Ha H0)].
  - apply (utf8_behind [QUOTE]) in H0; [|repeat constructor]. apply (utf8_around t) in H0; [|reflexivity]. exact H0.
  - split; [constructor|]. apply (utf8_behind [LBRACK]) in H0; [|repeat constructor]. apply utf8_behind in H0; [|apply blanks_ascii, H].
    apply (utf8_behind [RBRACK]) in H0; [exact H0|repeat constructor].
  - apply (utf8_behind [LBRACK]) in H4; [|repeat constructor]. apply utf8_behind in H4; [|apply blanks_ascii, H].
    destruct (H1 H4) as (A & C). destruct (H3 C) as (D & F). split; [constructor; assumption|exact F].
  - split; [constructor|]. apply (junk_behind _ _ _ H) in H1. apply (utf8_behind [LBRACE]) in H1; [|repeat constructor].
    apply utf8_behind in H1; [|apply blanks_ascii, H0]. apply (utf8_behind [RBRACE]) in H1; [exact H1|repeat constructor].
  - apply (junk_behind _ _ _ H) in H8. apply (utf8_behind [LBRACE]) in H8; [|repeat constructor].
    apply utf8_behind in H8; [|apply blanks_ascii, H0]. apply (utf8_behind [QUOTE]) in H8; [|repeat constructor].
    apply (utf8_around k) in H8; [|reflexivity]. destruct H8 as (Hk & H8). apply utf8_behind in H8; [|apply spaces_ascii, H2].
    apply (utf8_behind [COLON]) in H8; [|repeat constructor]. apply utf8_behind in H8; [|apply blanks_ascii, H3].
    destruct (H5 H8) as (A & C). destruct (H7 C) as (D & F). split; [constructor; [split|]; assumption|exact F].
  - split; [constructor|]. apply utf8_behind in H0; [|apply blanks_ascii, H]. apply (utf8_behind [RBRACK]) in H0; [exact H0|repeat constructor].
  - apply utf8_behind in H5; [|apply blanks_ascii, H]. apply (utf8_behind [COMMA]) in H5; [|repeat constructor]. apply utf8_behind in H5; [|apply blanks_ascii, H0].
    destruct (H2 H5) as (A & C). destruct (H4 C) as (D & F). split; [constructor; assumption|exact F].
  - split; [constructor|]. apply utf8_behind in H0; [|apply blanks_ascii, H]. apply (utf8_behind [RBRACE]) in H0; [exact H0|repeat constructor].
  - apply utf8_behind in H8; [|apply blanks_ascii, H]. apply (utf8_behind [COMMA]) in H8; [|repeat constructor]. apply utf8_behind in H8; [|apply blanks_ascii, H0].
    apply (utf8_behind [QUOTE]) in H8; [|repeat constructor].
    apply (utf8_around k) in H8; [|reflexivity]. destruct H8 as (Hk & H8). apply utf8_behind in H8; [|apply spaces_ascii, H2].
    apply (utf8_behind [COLON]) in H8; [|repeat constructor]. apply utf8_behind in H8; [|apply blanks_ascii, H3].
    destruct (H5 H8) as (A & C). destruct (H7 C) as (D & F). split; [constructor; [split|]; assumption|exact F].
Qed.
Lemma lax_document_unicode whole b v l r : lax_document whole b v l r -> is_utf8 l -> unicode v /\ is_utf8 r.
Proof. intros (w & l' & -> & Hw & H) Hl. apply (proj1 (lax_unicode whole) _ _ _ _ H). exact (utf8_behind w l' (blanks_ascii w Hw) Hl). Qed.
Lemma lax_documents_unicode whole b vs l r : lax_documents whole b vs l r -> is_utf8 l -> Forall unicode vs.
Proof.
  induction 1 as [|b v vs l l1 r Hd _ IH]; intros Hl; [constructor|]. destruct (lax_document_unicode _ _ _ _ _ Hd Hl) as (A & C). constructor; auto.
Qed.
Lemma join_utf8 (l : list bytes) : Forall is_utf8 l -> is_utf8 (join l).
Proof.
  induction 1 as [|x l Hx Hl IH]; [reflexivity|]. destruct l as [|y l]; [exact Hx|]. cbn [join] in *. apply utf8_both; [exact Hx|].
  apply (utf8_both [COMMA]); [reflexivity|exact IH].
Qed.
Lemma compact_utf8 v : unicode v -> is_utf8 (compact v).
Proof.
  induction v as [v Ha|vs IH|ms IH] using json_induction; intros H.
  - destruct v; try contradiction; cbn [compact]; try reflexivity; [exact (utf8_ascii _ H)|]. apply (utf8_both [QUOTE]); [reflexivity|]. apply utf8_both; [exact H|reflexivity].
  - apply unicode_array in H. cbn [compact]. apply (utf8_both [LBRACK]); [reflexivity|]. apply utf8_both; [|reflexivity]. apply join_utf8.
    induction IH as [|v vs Hv _ IHvs]; [constructor|]. inversion H; subst. constructor; auto.
  - apply unicode_object in H. cbn [compact]. apply (utf8_both [LBRACE]); [reflexivity|]. apply utf8_both; [|reflexivity]. apply join_utf8.
    induction IH as [|[k v] ms Hv _ IHms]; [constructor|]. inversion H; subst. cbn [fst snd] in *. constructor; [|auto].
    apply (utf8_both [QUOTE]); [reflexivity|]. apply utf8_both; [tauto|]. apply (utf8_both [QUOTE; COLON]); [reflexivity|]. apply Hv. tauto.
Qed.

(** ** What the converters write *)
Section Walk.
Context {M : Type}.
Definition plain (f : @tstep M) : Prop := forall m x m', f m = Some (x, m') -> is_utf8 x.
Lemma plain_then f g : plain f -> plain g -> plain (t_then f g).
Proof.
  intros Hf Hg m x m' H. unfold t_then in H. destruct (f m) as [[a m1]|] eqn:Ef; [|discriminate]. destruct (g m1) as [[b m2]|] eqn:Eg; [|discriminate].
  injection H as <- _. apply utf8_both; [exact (Hf _ _ _ Ef)|exact (Hg _ _ _ Eg)].
Qed.
Lemma plain_const (a : bytes) (g : M -> M) : is_utf8 a -> plain (fun m => Some (a, g m)).
Proof. intros Ha m x m' H. injection H as <- _. exact Ha. Qed.
Lemma plain_none : plain (@t_none M).
Proof. apply plain_const. reflexivity. Qed.

Context (tb : pseudoname -> list bytes -> json -> M -> option (bytes * M * bool)) (te : pseudoname -> list bytes -> @tstep M).
Context (Htb : forall name path v m x m' b, Forall is_utf8 path -> unicode v -> tb name path v m = Some (x, m', b) -> is_utf8 x).
Context (Hte : forall name path, Forall is_utf8 path -> plain (te name path)).
Lemma plain_items path vs : Forall (fun v => plain (run_value tb te path v)) vs -> plain (run_items tb te path vs).
Proof. induction 1 as [|v vs Hv _ IH]; cbn [run_items]; [apply plain_none|apply plain_then; assumption]. Qed.
Lemma plain_member path v : Forall is_utf8 path -> unicode v -> plain (run_value tb te path v) -> plain (run_member tb te path v).
Proof.
  intros Hp Hu Hv m x m' H. unfold run_member, t_begin in H. destruct (tb PNone path v m) as [[[a m1] b]|] eqn:Eb; [|discriminate].
  pose proof (Htb _ _ _ _ _ _ _ Hp Hu Eb) as Ha.
  destruct b; (eapply plain_then; [| |exact H]; [apply (plain_const a (fun _ => m1)), Ha|]); [apply Hte, Hp|apply plain_then; [exact Hv|apply Hte, Hp]].
Qed.
Lemma plain_value v : unicode v -> forall path, Forall is_utf8 path -> plain (run_value tb te path v).
Proof.
  induction v as [v Ha|vs IH|ms IH] using json_induction; intros H path Hp m x m' E.
  - destruct v; try contradiction; cbn [run_value] in E;
      (match type of E with match ?t with _ => _ end = _ => destruct t as [[[a m1] b]|] eqn:Eb end; [|discriminate]; injection E as <- _; exact (Htb _ _ _ _ _ _ _ Hp H Eb)).
  - rewrite run_array in E. destruct (tb PArray path (JArray vs) m) as [[[a m1] b]|] eqn:Eb; [|discriminate].
    pose proof (Htb _ _ _ _ _ _ _ Hp H Eb) as Ha. destruct b; [injection E as <- _; exact Ha|].
    eapply plain_then; [| |exact E]; [apply (plain_const a (fun _ => m1)), Ha|]. apply plain_then; [|apply Hte, Hp]. apply plain_items.
    apply unicode_array in H. apply Forall_forall. intros v Hv. rewrite Forall_forall in IH, H. apply (IH v Hv (H v Hv)). constructor; [reflexivity|exact Hp].
  - rewrite run_object in E. destruct (tb PObject path (JObject ms) m) as [[[a m1] b]|] eqn:Eb; [|discriminate].
    pose proof (Htb _ _ _ _ _ _ _ Hp H Eb) as Ha. destruct b; [injection E as <- _; exact Ha|].
    eapply plain_then; [| |exact E]; [apply (plain_const a (fun _ => m1)), Ha|]. apply plain_then; [|apply Hte, Hp].
    apply unicode_object in H. clear E Eb. induction IH as [|[k v] ms Hv _ IHms]; cbn [run_members]; [apply plain_none|]. inversion H as [|? ? (Hk & Hu) Hr]; subst.
    cbn [fst snd] in *. apply plain_then; [|apply IHms; exact Hr].
    assert (Hkp : Forall is_utf8 (k :: path)) by (constructor; assumption). apply plain_member; auto.
Qed.
Lemma plain_stream vs : Forall unicode vs -> plain (run_items tb te [bs "#top"] vs).
Proof. intros H. apply plain_items. revert H. apply Forall_impl. intros v Hv. apply plain_value; [exact Hv|]. constructor; [reflexivity|constructor]. Qed.
End Walk.

(** ** The steps of the converters *)
Lemma nl_utf8 pr : is_utf8 (nl pr). Proof. destruct pr; reflexivity. Qed.
Lemma pads_utf8 n : is_utf8 (pads n). Proof. induction n as [|n IH]; [reflexivity|]. apply (utf8_both [32%N; 32%N]); [reflexivity|exact IH]. Qed.
Lemma plain_put (d : bytes) : is_utf8 d -> plain (t_put d).
Proof. intros H. exact (plain_const d (fun m => m) H). Qed.
Lemma plain_newline pr : plain (t_newline pr).
Proof. apply plain_put, nl_utf8. Qed.
Lemma plain_indent pr : plain (t_indent pr).
Proof. intros m x m' H. injection H as <- _. unfold tab. destruct pr; [apply pads_utf8|reflexivity]. Qed.
Lemma plain_comma pr : plain (t_comma pr).
Proof. intros m x m' H. injection H as <- _. destruct (fst m); [|reflexivity]. apply (utf8_both [COMMA]); [reflexivity|apply nl_utf8]. Qed.
Lemma plain_deeper : plain t_deeper. Proof. apply (plain_const [] _). reflexivity. Qed.
Lemma plain_comma_is b : plain (t_comma_is b). Proof. apply (plain_const [] _). reflexivity. Qed.
Lemma plain_shallower : plain t_shallower.
Proof. intros m x m' H. unfold t_shallower in H. destruct (snd m); [discriminate|]. injection H as <- _. reflexivity. Qed.
Lemma plain_lift f : plain f -> plain (lift f).
Proof. intros Hf [[m p] t] x m' H. unfold lift in H. destruct (f m) as [[a m1]|] eqn:E; [|discriminate]. injection H as <- _. exact (Hf _ _ _ E). Qed.
Lemma plain_phase p : plain (t_phase p).
Proof. intros [[m p'] t] x m' H. injection H as <- _. reflexivity. Qed.
Lemma plain_type t : plain (t_type t).
Proof. intros [[m p'] t'] x m' H. injection H as <- _. reflexivity. Qed.
Ltac plainly := repeat first
  [ apply plain_then | apply plain_lift | apply plain_newline | apply plain_indent | apply plain_comma | apply plain_deeper | apply plain_shallower
  | apply plain_comma_is | apply plain_phase | apply plain_type | apply plain_none | (apply plain_put; first [reflexivity | assumption]) 
  | (apply (plain_const []); reflexivity) ].

Lemma goes_plain f m x m' b : plain f -> D2nProofs.goes f m = Some (x, m', b) -> is_utf8 x.
Proof. unfold D2nProofs.goes. intros Hf H. destruct (f m) as [[a m1]|] eqn:E; [|discriminate]. injection H as <- _ _. exact (Hf _ _ _ E). Qed.
Lemma takes_plain f m x m' b : plain f -> D2nProofs.takes f m = Some (x, m', b) -> is_utf8 x.
Proof. unfold D2nProofs.takes. intros Hf H. destruct (f m) as [[a m1]|] eqn:E; [|discriminate]. injection H as <- _ _. exact (Hf _ _ _ E). Qed.
Lemma string_plain pr q (t : bytes) : is_utf8 t -> plain (t_string pr q t).
Proof. intros Ht. unfold t_string, t_quotes. destruct q; plainly. Qed.
Lemma type_key_plain pr key v m x m' b : unicode v -> t_type_key pr key v m = Some (x, m', b) -> is_utf8 x.
Proof.
  intros Hv H. unfold t_type_key in H.
  repeat match type of H with (if ?c then _ else _) _ = _ => destruct c end; try discriminate H;
    try (destruct v; try discriminate H; try (eapply takes_plain; [|exact H]; first [apply plain_then; [apply string_plain, Hv|plainly]|unfold t_word; plainly]));
    (eapply goes_plain; [|exact H]; plainly).
Qed.
Lemma d2n_tb_plain pr mode name path v m x m' b : Forall is_utf8 path -> unicode v -> d2n_tb pr mode name path v m = Some (x, m', b) -> is_utf8 x.
Proof.
  intros Hp Hv H. destruct m as [[c ph] ty]. unfold d2n_tb in H. 
  assert (Hk : forall k p, path = k :: p -> plain (D2nProofs.t_field pr k)).
  { intros k p ->. inversion Hp; subst. unfold D2nProofs.t_field. plainly. }
  assert (Hr : plain (t_begin_root pr)) by (unfold t_begin_root; plainly).
  destruct name;
    repeat match type of H with context [match ?t with _ => _ end] => destruct t; try discriminate H end;
    try (eapply goes_plain; [|exact H]; first [exact Hr|plainly; fail|eapply Hk; reflexivity]);
    try (eapply takes_plain; [apply string_plain, Hv|exact H]);
    try exact (type_key_plain _ _ _ _ _ _ _ Hv H).
Qed.
Lemma d2n_te_plain pr mode name path : plain (d2n_te pr mode name path).
Proof.
  intros [[c ph] ty] x m' H. unfold d2n_te in H.
  assert (Hl : plain t_list_end) by (unfold t_list_end; plainly). assert (Hs : plain t_set_end) by (unfold t_set_end; plainly).
  assert (Hm : plain (t_map_end pr)) by (unfold t_map_end; plainly).
  assert (Hr : plain (t_root_end pr)) by (unfold t_root_end; plainly).
  repeat match type of H with context [match ?t with _ => _ end] => destruct t; try discriminate H end;
    (match type of H with ?f _ = _ => refine ((_ : plain f) _ _ _ H) end; first [exact Hl|exact Hs|exact Hm|exact Hr|apply plain_then; [exact Hm|plainly]|plainly]).
Qed.
Lemma atom_utf8 v : unicode v -> is_utf8 (atom_text v).
Proof.
  intros Hv. destruct v; cbn [atom_text]; try reflexivity; (apply utf8_both; [reflexivity|]; apply utf8_both; [|reflexivity]); [|exact Hv].
  apply utf8_ascii. cbn [unicode] in Hv. unfold ascii in Hv. rewrite <- (firstn_skipn 32 t) in Hv. apply Forall_app in Hv. apply Hv.
Qed.
Lemma n2d_goes_plain f m x m' b : plain f -> N2dProofs.goes f m = Some (x, m', b) -> is_utf8 x.
Proof. unfold N2dProofs.goes. intros Hf H. destruct (f m) as [[a m1]|] eqn:E; [|discriminate]. injection H as <- _ _. exact (Hf _ _ _ E). Qed.
Lemma n2d_takes_plain f m x m' b : plain f -> N2dProofs.takes f m = Some (x, m', b) -> is_utf8 x.
Proof. unfold N2dProofs.takes. intros Hf H. destruct (f m) as [[a m1]|] eqn:E; [|discriminate]. injection H as <- _ _. exact (Hf _ _ _ E). Qed.
Lemma n2d_tb_plain pr wr name path v m x m' b : Forall is_utf8 path -> unicode v -> n2d_tb pr wr name path v m = Some (x, m', b) -> is_utf8 x.
Proof.
  intros Hp Hv H. unfold n2d_tb in H. pose proof (atom_utf8 v Hv) as Ha. destruct path as [|parent path]; [discriminate|]. inversion Hp; subst.
  assert (Hl : plain (t_root_literal pr v)) by (unfold t_root_literal, t_atom, t_close; plainly).
  destruct (beq parent (bs "#top")); [|destruct (beq parent (bs "#array"))]; destruct name;
    first [eapply n2d_goes_plain; [|exact H]|eapply n2d_takes_plain; [|exact H]]; try exact Hl;
    unfold t_root_object, t_root_array, t_array, t_object, t_element, N2dProofs.t_field, t_atom, t_close; try destruct wr; plainly.
Qed.
Lemma n2d_te_plain pr wr name path : plain (n2d_te pr wr name path).
Proof.
  unfold n2d_te. destruct path as [|parent path]; [plainly|].
  destruct (beq parent (bs "#top")); destruct name; unfold t_root_object_end, t_root_array_end, t_object_end, t_array_end; try destruct wr; plainly.
Qed.

(** ** The results *)
Lemma characters_eq (l : bytes) : is_utf8 l <-> characters l.
Proof. apply utf8_spells. Qed.
Lemma from_ddb_characters fuel rd w rb xb pr mode w' : 2 <= len rb -> convert_ddb_to_normal fuel rd w rb xb pr mode = Done (w', Ok tt) -> characters (src rd) ->
  exists text, spent w text w' /\ characters text.
Proof.
  intros H2 E Hi. destruct (d2n_only false rb pr mode fuel rd w xb w' H2 ltac:(discriminate) E) as (vs & r & Hl & _ & text & m' & Ht & Hs).
  exists text. split; [exact Hs|]. apply utf8_spells in Hi. apply utf8_spells. pose proof (lax_documents_unicode _ _ _ _ _ Hl Hi) as Hu.
  exact (plain_stream _ _ (d2n_tb_plain pr mode) (fun n p _ => d2n_te_plain pr mode n p) vs Hu _ _ _ Ht).
Qed.
Lemma to_ddb_characters fuel rd w rb xb pr wr w' : 8 <= len rb -> (forall e, ~ In (Fail e) (sched rd)) ->
  convert_normal_to_ddb fuel rd w rb xb pr wr = Done (w', Ok tt) -> characters (src rd) -> exists text, spent w text w' /\ characters text.
Proof.
  intros H8 Hq E Hi. destruct (n2d_only false rb pr wr fuel rd w xb w' H8 Hq ltac:(discriminate) E) as (vs & r & Hl & _ & text & m' & Ht & Hs).
  exists text. split; [exact Hs|]. apply utf8_spells in Hi. apply utf8_spells. pose proof (lax_documents_unicode _ _ _ _ _ Hl Hi) as Hu.
  exact (plain_stream _ _ (n2d_tb_plain pr wr) (fun n p _ => n2d_te_plain pr wr n p) vs Hu _ _ _ Ht).
Qed.
Lemma idt_characters c d r w p r' w' p' fuel : 2 <= c -> valid r -> rcap r = c -> fresh d p -> idtransform fuel r w p = Done (r', w', p', Ok tt) -> characters (rest r) ->
  (blanks (rest r) /\ w' = w) \/
  exists v, lax_document false true v (rest r) (rest r') /\ characters (rest r') /\ (ordinary v -> exists text, spent w text w' /\ characters text).
Proof.
  intros H2 Hv Hc Hp E Hi. apply utf8_spells in Hi. destruct (idt_sound false c H2 d r w p r' w' p' fuel) as [H|(v & Hl & Hw)]; auto.
  - split; [exact Hv|]. split; [exact Hc|discriminate].
  - right. exists v. split; [exact Hl|]. destruct (lax_document_unicode _ _ _ _ _ Hl Hi) as (Hu & Hr). split; [apply utf8_spells, Hr|].
    intros Ho. exists (compact v). split; [exact (Hw Ho)|]. apply utf8_spells, compact_utf8, Hu.
Qed.
