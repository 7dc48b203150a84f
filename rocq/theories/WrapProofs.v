(** The converter from DynamoDB in a build without overflow checks. *)
From Verif Require Import Base U8Pool PoolSpec PoolProofs Buffer BufferSpec BufferProofs Jiter JiterProofs RJiter RJiterSpec RJiterProofs RJiterOpProofs RJiterIndexProofs RJiterInvProofs.
From Verif Require Import Scan ScanSpec ScanParser RJiterEndProofs ScanStack ScanProofs ScanTop EndsSpec ScanBalance ScanEnds EndResults.
From Verif Require Import Conv DdbToNormal Wrapping Agree.

(** ** It does the same as the build with overflow checks unless that panics *)
(** A step that raises the level by at most [a]. *)
Definition rises (a : nat) (f : step conv) : Prop := forall u, match f u with Done (u', _) => level u' <= level u + a | _ => True end.
Definition lifts (a : nat) (f : step d2n) : Prop := forall u, match f u with Done (u', _) => level (base u') <= level (base u) + a | _ => True end.
Lemma rises_then a b f g : rises a f -> rises b g -> rises (a + b) (f ;; g).
Proof.
  intros Hf Hg u. unfold and_then. specialize (Hf u). destruct (f u) as [[u1 [v|m]]| |]; cbn [obind]; auto; [|lia]. specialize (Hg u1). destruct (g u1) as [[u2 v2]| |]; auto. lia.
Qed.
Lemma lifts_then a b f g : lifts a f -> lifts b g -> lifts (a + b) (f ;; g).
Proof.
  intros Hf Hg u. unfold and_then. specialize (Hf u). destruct (f u) as [[u1 [v|m]]| |]; cbn [obind]; auto; [|lia]. specialize (Hg u1). destruct (g u1) as [[u2 v2]| |]; auto. lia.
Qed.
Lemma rises_then0 f g : rises 0 f -> rises 0 g -> rises 0 (f ;; g).
Proof. apply (rises_then 0 0). Qed.
Lemma lifts_then0 f g : lifts 0 f -> lifts 0 g -> lifts 0 (f ;; g).
Proof. apply (lifts_then 0 0). Qed.
Lemma rises_put d m : rises 0 (put d m).
Proof. intros u. unfold put. destruct (write_all (cout u) d) as [w [v|e]]; cbn; lia. Qed.
Lemma rises_skip : rises 0 skip.
Proof. intros u. cbn. lia. Qed.
Lemma rises_comma b : rises 0 (comma_is b).
Proof. intros u. cbn. lia. Qed.
Lemma rises_newline : rises 0 newline.
Proof. intros u. unfold newline. destruct (pretty u); [apply rises_put|apply rises_skip]. Qed.
Lemma rises_write_comma : rises 0 write_comma.
Proof.
  intros u. unfold write_comma. destruct (pending u); [|apply rises_skip]. revert u. apply rises_then0; [apply rises_put|]. apply rises_then0; [apply rises_newline|]. apply (rises_comma false).
Qed.
Lemma rises_indents n : rises 0 (indents n).
Proof. induction n as [|n IH]; [apply rises_skip|]. cbn [indents]. apply rises_then0; [apply rises_put|exact IH]. Qed.
Lemma rises_indent : rises 0 indent.
Proof. intros u. unfold indent. destruct (pretty u); [apply rises_indents|apply rises_skip]. Qed.
Lemma rises_shallower : rises 0 shallower.
Proof. intros u. unfold shallower. destruct (level u) eqn:E; cbn; [exact Logic.I|lia]. Qed.
Lemma rises_deeper : rises 1 deeper.
Proof. intros u. cbn. lia. Qed.
Lemma lifts_base a f : rises a f -> lifts a (on_base f).
Proof. intros H u. unfold on_base. specialize (H (base u)). destruct (f (base u)) as [[b v]| |]; cbn [obind]; auto. Qed.
Lemma lifts_phase p : lifts 0 (phase_is p).
Proof. intros u. cbn. lia. Qed.
Lemma lifts_type t : lifts 0 (type_is t).
Proof. intros u. cbn. lia. Qed.
Lemma lifts_weaken a b f : a <= b -> lifts a f -> lifts b f.
Proof. intros Hab H u. specialize (H u). destruct (f u) as [[u' v]| |]; auto. lia. Qed.
Ltac lifting := repeat first
  [ apply rises_put | apply rises_skip | apply rises_comma | apply rises_newline | apply rises_write_comma | apply rises_indent | apply rises_shallower
  | apply lifts_phase | apply lifts_type | apply rises_then0 | apply lifts_then0 | apply lifts_base ].
(** An action that raises the level by at most one. *)
Definition mounts (a : action d2n) : Prop := forall r u, match a r u with Done (_, u', _) => level (base u') <= S (level (base u)) | _ => True end.
Lemma mounts_act f op : lifts 1 f -> mounts (act_of f op).
Proof. intros H r u. unfold act_of. specialize (H u). destruct (f u) as [[u' v]| |]; cbn [obind]; auto. lia. Qed.
Lemma mounts_finally f a : (forall u, level (base (f u)) = level (base u)) -> mounts a -> mounts (finally f a).
Proof. intros Hf H r u. unfold finally. specialize (H r u). destruct (a r u) as [[[r' u'] op]| |]; cbn [obind]; auto. rewrite Hf. exact H. Qed.
Lemma mounts_string q m1 m2 : mounts (write_string_value q m1 m2).
Proof.
  intros r u. unfold write_string_value. destruct (peek r) as [[r1 [x|e]]| |]; cbn [obind]; auto. destruct (negb _); [auto|].
  assert (H : lifts 0 (on_base (write_comma ;; if q then put [QUOTE] "writing opening quote" else skip))) by (destruct q; lifting).
  specialize (H u). destruct (on_base _ u) as [[u1 [v|m]]| |]; cbn [obind]; auto; [|lia].
  destruct (write_long_bytes r1 (cout (base u1))) as [[[r2 w] [v2|e]]| |]; cbn [obind]; auto; [|cbn; lia].
  set (u2 := set_base u1 (set_cout (base u1) w)). assert (E2 : level (base u2) = level (base u1)) by reflexivity.
  assert (H2 : lifts 0 (on_base ((if q then put [QUOTE] "writing closing quote" else skip) ;; comma_is true))) by (destruct q; lifting).
  specialize (H2 u2). unfold act_of. destruct (on_base _ u2) as [[u3 v3]| |]; cbn [obind]; auto. lia.
Qed.
Lemma mounts_bool validate m : mounts (handle_bool_based_type validate m).
Proof.
  intros r u. unfold handle_bool_based_type. destruct (peek r) as [[r1 [x|e]]| |]; cbn [obind]; auto. destruct (validate x) as [o|e]; [|auto].
  assert (H : lifts 0 (on_base write_comma)) by lifting.
  specialize (H u). destruct (on_base _ u) as [[u1 [v|e]]| |]; cbn [obind]; auto; [|lia].
  destruct (known_bool x r1) as [[r2 [v2|e]]| |]; cbn [obind]; auto; [|cbn; lia].
  assert (H2 : lifts 0 (on_base (put o m ;; comma_is true) ;; type_is None)) by lifting.
  specialize (H2 u1). unfold act_of. destruct ((on_base (put o m ;; comma_is true) ;; type_is None) u1) as [[u3 v3]| |]; cbn [obind]; auto. lia.
Qed.
Lemma mounts_field_key : mounts on_field_key.
Proof. intros r u. unfold on_field_key. destruct (field (base u)) as [key|]; [|auto]. apply mounts_act. apply (lifts_weaken 0); [auto|]. lifting. Qed.
Lemma mounts_type_key : mounts on_type_key.
Proof.
  intros r u. unfold on_type_key. destruct (field (base u)) as [key|]; [|auto].
  destruct (beq key (bs "S") || beq key (bs "B"))%bool; [apply mounts_finally; [reflexivity|apply mounts_string]|].
  destruct (beq key (bs "N")); [apply mounts_finally; [reflexivity|apply mounts_string]|].
  destruct (beq key (bs "BOOL")); [apply mounts_finally; [reflexivity|apply mounts_bool]|].
  destruct (beq key (bs "NULL")); [apply mounts_finally; [reflexivity|apply mounts_bool]|].
  destruct (beq key (bs "SS") || beq key (bs "BS"))%bool; [apply mounts_act; apply (lifts_weaken 0); [auto|]; lifting|].
  destruct (beq key (bs "NS")); [apply mounts_act; apply (lifts_weaken 0); [auto|]; lifting|].
  destruct (beq key (bs "L")); [apply mounts_act; apply (lifts_weaken 0); [auto|]; lifting|].
  destruct (beq key (bs "M")).
  { apply mounts_act. apply (lifts_then 1 0); [|lifting]. apply lifts_base. apply (rises_then 0 1); [lifting|]. apply (rises_then 0 1); [lifting|]. apply (rises_then 0 1); [lifting|].
    apply (rises_then 1 0); [apply rises_deeper|lifting]. }
  auto.
Qed.
Lemma mounts_root : mounts on_root_object_begin.
Proof.
  intros r u. unfold on_root_object_begin, act_of, on_base.
  assert (H : forall c, match (put [LBRACE] "writing root object opening brace" ;; newline ;; change_to (fun c => set_level c 1)) c with Done (c', _) => level c' <= S (level c) | _ => True end).
  { intros c. assert (H : rises 1 (put [LBRACE] "writing root object opening brace" ;; newline ;; change_to (fun c => set_level c 1))); [|specialize (H c); destruct ((put [LBRACE] "writing root object opening brace" ;; newline ;; change_to (fun c => set_level c 1)) c) as [[c' v]| |]; auto; lia].
    apply (rises_then 0 1); [lifting|]. apply (rises_then 0 1); [lifting|]. intros c0. cbn. lia. }
  specialize (H (base u)). destruct ((put [LBRACE] "writing root object opening brace" ;; newline ;; change_to (fun c => set_level c 1)) (base u)) as [[c' v]| |]; cbn [obind]; auto.
Qed.
Lemma mounts_error : mounts on_error.
Proof. intros r u. cbn. auto. Qed.
Lemma found_mounts mode name x u : let '(u1, a) := d2n_find_action mode name x u in
  level (base u1) = level (base u) /\ match a with Some f => mounts f | None => True end.
Proof.
  destruct name; cbn [d2n_find_action].
  - unfold find_action_array. destruct (current_type u) as [[| | |]|]; (split; [reflexivity|]); try exact Logic.I; apply mounts_error.
  - unfold find_action_object. destruct (level (base u) =? 0); [split; [reflexivity|apply mounts_root]|].
    destruct (at_phase u); try (split; [reflexivity|]; try exact Logic.I; apply mounts_error).
    + destruct (current_type u) as [[| | |]|]; (split; [reflexivity|]); try exact Logic.I; apply mounts_error.
    + destruct (parent_is _ _); (split; [reflexivity|]); try exact Logic.I; apply mounts_error.
  - unfold find_action_atom. destruct (at_phase u); try (split; [reflexivity|apply mounts_error]). destruct (parent_is _ _); [|split; [reflexivity|apply mounts_error]].
    destruct (current_type u) as [[| | |]|]; (split; [reflexivity|]); first [apply mounts_string|apply mounts_error].
  - unfold find_action_key. destruct (names x) as [|key path]; [split; [reflexivity|exact Logic.I]|]. destruct (at_phase u).
    + destruct (_ && _)%bool; (split; [reflexivity|]); [exact Logic.I|apply mounts_field_key].
    + split; [reflexivity|apply mounts_type_key].
    + destruct (in_set _); (split; [reflexivity|]); [apply mounts_type_key|apply mounts_error].
    + split; [reflexivity|apply mounts_field_key].
Qed.
Lemma map_end_wraps top u : on_map_end u = Panic \/ on_map_end_wrapping top u = on_map_end u.
Proof.
  unfold on_map_end, on_map_end_wrapping. set (rest := indent ;; _). unfold on_base, and_then.
  destruct (newline (base u)) as [[c1 [v|m]]| |]; cbn [obind]; auto. unfold shallower, shallower_wrapping, change_to. destruct (level c1) as [|n]; [left; reflexivity|right; reflexivity].
Qed.
Lemma end_lifts mode name x u : let '(u1, a) := d2n_find_end_action mode name x u in u1 = u /\ match a with Some f => lifts 0 f | None => True end.
Proof.
  cbn [d2n_find_end_action]. unfold d2n_find_end_action. split; [reflexivity|].
  assert (Hm : lifts 0 on_map_end) by (unfold on_map_end; lifting).
  destruct name.
  - destruct (at_phase u); try exact Logic.I; [|unfold on_set_end; lifting]. intros u'. unfold on_list_end. destruct (at_phase u'); try lia.
    assert (H : lifts 0 (on_base (put [RBRACK] "writing L closing bracket" ;; comma_is true) ;; phase_is ExpectingValue ;; type_is None)) by lifting. exact (H u').
  - destruct (_ =? 1); [|exact Logic.I]. unfold on_root_object_end. apply lifts_then0; [|lifting]. apply lifts_base. do 4 (apply rises_then0; [lifting|]). intros c. cbn. lia.
  - exact Logic.I.
  - unfold find_end_action_key. destruct (names x) as [|key path]; [exact Logic.I|]. destruct (at_phase u).
    + destruct (_ && _)%bool; [exact Logic.I|]. destruct (parent_is _ _); [|exact Hm]. unfold on_map_end_in_array. apply lifts_then0; [exact Hm|lifting].
    + destruct (is_container key); [exact Logic.I|]. unfold on_transition_to_type_key_consumed. lifting.
    + destruct (parent_is _ _); [unfold on_type_key_end_in_array|unfold on_transition_to_type_key_consumed]; lifting.
    + destruct (parent_is _ _); [unfold on_type_key_end_in_array|unfold on_type_key_end]; lifting.
Qed.
Definition below (n : nat) (u : d2n) : Prop := level (base u) <= n.
Lemma wrapping_agrees top mode : agreeing top below (d2n_callbacks mode) (wrapping_callbacks top mode).
Proof.
  constructor.
  - intros n name x u Hn HI. cbn [find_action d2n_callbacks wrapping_callbacks]. unfold find_action_wrapping.
    pose proof (found_mounts mode name x u) as H. destruct (d2n_find_action mode name x u) as [u1 [f|]]; cbn [option_map]; destruct H as (Hl & H).
    + split; [reflexivity|]. intros r. right. specialize (H r u1). unfold finally. destruct (f r u1) as [[[r' u'] op]| |]; cbn [obind]; auto.
      unfold below in *. split; [|lia]. unfold wrap. assert (E : (level (base u') <=? top) = true) by (apply Nat.leb_le; lia). rewrite E. reflexivity.
    + split; [reflexivity|]. unfold below in *. lia.
  - intros n name x u Hn HI. cbn [find_end_action d2n_callbacks wrapping_callbacks]. pose proof (end_lifts mode name x u) as H.
    assert (Same : forall a, match a with Some f => lifts 0 f | None => True end ->
      match (u, a), (u, a) with
      | (u1, None), (u2, None) => u1 = u2 /\ below (S n) u1
      | (u1, Some f), (u2, Some g) => u1 = u2 /\ (f u1 = Panic \/ (f u1 = g u1 /\ match f u1 with Done (u', _) => below (S n) u' | _ => True end))
      | _, _ => False
      end).
    { intros [f|] Hf; [|split; [reflexivity|unfold below in *; lia]]. split; [reflexivity|]. right. split; [reflexivity|]. specialize (Hf u). destruct (f u) as [[u' v]| |]; auto. unfold below in *. lia. }
    destruct name; [exact (Same _ (proj2 H))|exact (Same _ (proj2 H))|exact (Same None Logic.I)|].
    cbn [find_end_action_wrapping d2n_find_end_action] in *. unfold d2n_find_end_action in *. destruct H as (_ & H).
    unfold find_end_action_key_wrapping, find_end_action_key in *. destruct (names x) as [|key path]; [exact (Same None Logic.I)|].
    destruct (at_phase u); try exact (Same _ H); try exact (Same (Some _) H).
    destruct (_ && _)%bool; [exact (Same None Logic.I)|]. split; [reflexivity|]. destruct (parent_is _ _).
    + assert (E : on_map_end_in_array u = Panic \/ on_map_end_in_array u = on_map_end_in_array_wrapping top u).
      { unfold on_map_end_in_array, on_map_end_in_array_wrapping. change ((do (c', v) <- on_map_end u; match v with Ok _ => phase_is ExpectingTypeKey c' | Err m => Done (c', Err m) end) = Panic \/
          (do (c', v) <- on_map_end u; match v with Ok _ => phase_is ExpectingTypeKey c' | Err m => Done (c', Err m) end) =
          (do (c', v) <- on_map_end_wrapping top u; match v with Ok _ => phase_is ExpectingTypeKey c' | Err m => Done (c', Err m) end)).
        destruct (map_end_wraps top u) as [E|E]; rewrite E; [left|right]; reflexivity. }
      destruct E as [E|E]; [left; exact E|]. right. split; [exact E|]. specialize (H u). destruct (on_map_end_in_array u) as [[u' v]| |]; auto. unfold below in *. lia.
    + specialize (H u). destruct (map_end_wraps top u) as [E|E]; [left; exact E|]. right. split; [symmetry; exact E|]. destruct (on_map_end u) as [[u' v]| |]; auto. unfold below in *. lia.
Qed.
Lemma wrapping_same top fuel rd w rb xb is_pretty mode : 3 * fuel <= top ->
  convert_ddb_to_normal fuel rd w rb xb is_pretty mode = Panic \/
  convert_ddb_to_normal_wrapping top fuel rd w rb xb is_pretty mode = convert_ddb_to_normal fuel rd w rb xb is_pretty mode.
Proof.
  intros Hf. unfold convert_ddb_to_normal, convert_ddb_to_normal_wrapping, convert. destruct (pool_new true xb 68) as [[p|e]| |]; cbn [obind]; auto.
  destruct (agree_scan top below (fun n m u (H : n <= m) (H1 : below n u) => Nat.le_trans _ _ _ H1 H) _ _ (wrapping_agrees top mode) (mkOptions [] false) fuel 0
    (mkS (rj_new rd rb) (d2n_new w is_pretty) p) Hf (le_n 0)) as [E|(E & _)]; [left; rewrite E; reflexivity|right; rewrite E; reflexivity].
Qed.

(** ** It does not panic, and it comes to an end *)
Definition fine {B} (f : step B) : Prop := forall u, exists u' v, f u = Done (u', v).
Lemma fine_then {B} (f g : step B) : fine f -> fine g -> fine (f ;; g).
Proof. intros Hf Hg u. unfold and_then. destruct (Hf u) as (u1 & [v|m] & E); rewrite E; cbn [obind]; [apply Hg|eauto]. Qed.
Lemma runs_fine f : (forall a, exists b, runs f a b) -> fine f.
Proof. intros H u. destruct (H (level u)) as (b & Hb). destruct (Hb u (le_n _)) as (u' & v & E & _). eauto. Qed.
Lemma fine_on_base f : fine f -> fine (on_base f).
Proof. intros H u. unfold on_base. destruct (H (base u)) as (b & v & E). rewrite E. cbn [obind]. eauto. Qed.
Lemma fine_change {B} (f : B -> B) : fine (change_to f).
Proof. intros u. unfold change_to. eauto. Qed.
Lemma fine_put d m : fine (put d m).
Proof. apply runs_fine. intros a. exists a. apply runs_put. Qed.
Lemma fine_newline : fine newline.
Proof. apply runs_fine. intros a. exists a. apply runs_newline. Qed.
Lemma fine_indent : fine indent.
Proof. apply runs_fine. intros a. exists a. apply runs_indent. Qed.
Lemma fine_write_comma : fine write_comma.
Proof. apply runs_fine. intros a. exists a. apply runs_write_comma. Qed.
Lemma fine_skip {B} : fine (@skip B).
Proof. intros u. unfold skip. eauto. Qed.
Ltac fines := repeat first
  [ apply fine_put | apply fine_newline | apply fine_change | apply fine_indent | apply fine_write_comma | apply fine_skip | apply fine_on_base | eapply fine_then ].

Section Fine.
Context (top : nat) (mode : wrapper_mode) (c : nat) (q : bool) (Hc : 8 <= c).
Notation any := (fun _ : d2n => True).
Lemma fine_serves f r u : fine f -> ready c q r -> serves c q true true r any any (act_of f OpNone r u).
Proof. intros Hf HR. unfold act_of. destruct (Hf u) as (u1 & [v|m] & E); rewrite E; cbn [obind serves]; auto. Qed.
Lemma fine_consumes f r r1 u : fine f -> ready c q r1 -> left r1 < left r -> serves c q true true r any any (act_of f ValueIsConsumed r1 u).
Proof.
  intros Hf HR Hl. unfold act_of. destruct (Hf u) as (u1 & [v|m] & E); rewrite E; cbn [obind serves]; [|exact I].
  split; [exact HR|]. split; [lia|]. split; [auto|exact I].
Qed.
Lemma string_fine b m1 m2 r u : ready c q r -> serves c q true true r any any (write_string_value b m1 m2 r u).
Proof.
  intros HR. unfold write_string_value. destruct (method_ready c q _ _ _ _ _ r m_peek ltac:(lia) HR) as (r1 & v & E & HP). rewrite E. cbn [obind].
  destruct v as [x|e]; [|exact I]. destruct HP as (R1 & L1 & _). destruct (negb (N.eqb x QUOTE)); [exact I|].
  assert (Hf : fine (on_base (write_comma ;; if b then put [QUOTE] "writing opening quote" else skip))) by (destruct b; fines).
  destruct (Hf u) as (u1 & [v|m] & E1); rewrite E1; cbn [obind]; [|exact I].
  destruct (long_ready c q r1 (cout (base u1)) Hc R1) as (r2 & w2 & v2 & E3 & P3). rewrite E3. cbn [obind]. destruct v2 as [v2|e]; [|exact I]. destruct P3 as (R2 & L2).
  apply fine_consumes; [destruct b; fines|exact R2|lia].
Qed.
Lemma bool_fine validate m r u : ready c q r -> serves c q true true r any any (handle_bool_based_type validate m r u).
Proof.
  intros HR. unfold handle_bool_based_type. destruct (method_ready c q _ _ _ _ _ r m_peek ltac:(lia) HR) as (r1 & v & E & HP). rewrite E. cbn [obind].
  destruct v as [x|e]; [|exact I]. destruct HP as (R1 & L1 & _). destruct (validate x) as [o|e]; [|exact I].
  assert (Hf : fine (on_base write_comma)) by fines.
  destruct (Hf u) as (u1 & [v|e] & E1); rewrite E1; cbn [obind]; [|exact I].
  destruct (method_ready c q _ _ _ _ _ r1 (m_known_bool x) ltac:(lia) R1) as (r2 & v2 & E2 & P2). rewrite E2. cbn [obind]. destruct v2 as [v2|e]; [|exact I].
  destruct P2 as (R2 & L2 & L3). specialize (L3 (known_bool_advancing x)). apply fine_consumes; [unfold type_is; fines|exact R2|lia].
Qed.
Lemma finally_fine f a r u : serves c q true true r any any (a r u) -> serves c q true true r any any (finally f a r u).
Proof. unfold finally. destruct (a r u) as [[[r1 u1] [| |m]]| |]; cbn [obind serves]; auto. Qed.
Lemma type_key_fine r u : ready c q r -> serves c q true true r any any (on_type_key r u).
Proof.
  intros HR. unfold on_type_key. destruct (field (base u)) as [key|]; [|exact I].
  destruct (beq key (bs "S") || beq key (bs "B"))%bool; [apply finally_fine, string_fine, HR|].
  destruct (beq key (bs "N")); [apply finally_fine, string_fine, HR|].
  destruct (beq key (bs "BOOL")); [apply finally_fine, bool_fine, HR|].
  destruct (beq key (bs "NULL")); [apply finally_fine, bool_fine, HR|].
  destruct (beq key (bs "SS") || beq key (bs "BS"))%bool; [apply fine_serves; [unfold type_is, phase_is; fines|exact HR]|].
  destruct (beq key (bs "NS")); [apply fine_serves; [unfold type_is, phase_is; fines|exact HR]|].
  destruct (beq key (bs "L")); [apply fine_serves; [unfold type_is, phase_is; fines|exact HR]|].
  destruct (beq key (bs "M")); [apply fine_serves; [unfold deeper, type_is, phase_is; fines|exact HR]|]. exact I.
Qed.
Lemma field_key_fine r u : ready c q r -> serves c q true true r any any (on_field_key r u).
Proof. intros HR. unfold on_field_key. destruct (field (base u)) as [key|]; [|exact I]. apply fine_serves; [unfold phase_is; fines|exact HR]. Qed.
Lemma fine_acted f u : fine f -> acted true (Some f) u any.
Proof. intros H. unfold acted. destruct (H u) as (u1 & [v|m] & E); rewrite E; auto. Qed.
Lemma found_fine name x r u : ready c q r -> let '(_, a) := d2n_find_action mode name x u in
  match a with Some f => forall u', serves c q true true r any any (f r u') | None => True end.
Proof.
  intros HR. assert (Herr : forall u', serves c q true true r any any (on_error r u')) by (intros; exact I).
  destruct name; cbn [d2n_find_action].
  - unfold find_action_array. destruct (current_type u) as [[| | |]|]; try exact I; exact Herr.
  - unfold find_action_object. destruct (level (base u) =? 0); [intros u'; unfold on_root_object_begin; apply fine_serves; [fines|exact HR]|].
    destruct (at_phase u); try exact I; [|exact Herr|destruct (parent_is _ _); [exact I|exact Herr]]. destruct (current_type u) as [[| | |]|]; try exact I; exact Herr.
  - unfold find_action_atom. destruct (at_phase u); try exact Herr. destruct (parent_is _ _); [|exact Herr].
    destruct (current_type u) as [[| | |]|]; try exact Herr; intros u'; apply string_fine, HR.
  - unfold find_action_key. destruct (names x) as [|key path]; [exact I|]. destruct (at_phase u).
    + destruct (_ && _)%bool; [exact I|]. intros u'. apply field_key_fine, HR.
    + intros u'. apply type_key_fine, HR.
    + destruct (in_set _); [intros u'; apply type_key_fine, HR|exact Herr].
    + intros u'. apply field_key_fine, HR.
Qed.
Lemma wrapping_cooperative : cooperative c q true true no_halt (fun _ _ _ => True) (wrapping_callbacks top mode).
Proof.
  constructor; try (intros; exact I).
  - intros name L r u HR _. cbn [find_action wrapping_callbacks]. unfold find_action_wrapping. pose proof (found_fine name (context_for L) r u HR) as H.
    assert (HNone : forall u', passed (fun _ _ (_ : d2n) => True) name L u') by (intros u'; destruct name; exact I).
    destruct (d2n_find_action mode name (context_for L) u) as [u1 [f|]]; cbn [option_map]; [|apply HNone].
    apply (serves_begin c q true true (fun _ _ _ => True) name L). eapply serves_weaken; [apply le_n| |auto|apply finally_fine, H]. intros u' _. apply HNone.
  - intros r r' v [].
  - intros r r' v [].
  - intros k L u _. cbn [find_end_action wrapping_callbacks find_end_action_wrapping]. unfold find_end_action_key_wrapping.
    destruct (names _) as [|key path]; [exact I|].
    assert (Hm : fine (on_map_end_wrapping top)) by (unfold on_map_end_wrapping, phase_is, type_is, shallower_wrapping; fines).
    destruct (at_phase u).
    + destruct (_ && _)%bool; [exact I|]. apply fine_acted. destruct (parent_is _ _); [|exact Hm]. unfold on_map_end_in_array_wrapping, phase_is. apply fine_then; [exact Hm|fines].
    + destruct (is_container key); [exact I|]. apply fine_acted. apply fine_change.
    + apply fine_acted. destruct (parent_is _ _); apply fine_change.
    + apply fine_acted. destruct (parent_is _ _); apply fine_change.
  - intros L u _. cbn [find_end_action wrapping_callbacks find_end_action_wrapping d2n_find_end_action]. unfold d2n_find_end_action. destruct (_ =? 1); [|exact I]. apply fine_acted. unfold on_root_object_end, phase_is. fines.
  - intros L u _. cbn [find_end_action wrapping_callbacks find_end_action_wrapping d2n_find_end_action]. unfold d2n_find_end_action. destruct (at_phase u) eqn:Ep; try exact I.
    + apply fine_acted. intros u'. unfold on_list_end. destruct (at_phase u'); eauto.
      assert (Hl : fine (on_base (put [RBRACK] "writing L closing bracket" ;; comma_is true) ;; phase_is ExpectingValue ;; type_is None)) by (unfold phase_is, type_is; fines).
      apply Hl.
    + apply fine_acted. unfold on_set_end, phase_is, type_is. fines.
Qed.
End Fine.
Lemma wrapping_ends top fuel rd w rb xb is_pretty mode : 8 <= len rb -> 2 * len (src rd) + 2 <= fuel ->
  exists w' v, convert_ddb_to_normal_wrapping top fuel rd w rb xb is_pretty mode = Done (w', v).
Proof.
  intros H8 Hf. unfold convert_ddb_to_normal_wrapping.
  pose proof (convert_goes true true (fun _ _ _ => True) (wrapping_callbacks top mode) base 68 fuel rd rb xb (d2n_new w is_pretty)
    (wrapping_cooperative top mode (len rb) false H8) H8) as H.
  specialize (H ltac:(reflexivity) I). destruct (convert _ _ _ _ _ _ _ _) as [[u v]| |]; cbn [obind]; [eauto|discriminate|]. specialize (H eq_refl). lia.
Qed.
Lemma release_same top fuel rd w rb xb is_pretty mode : 8 <= len rb -> 2 * len (src rd) + 2 <= fuel -> 3 * fuel <= top ->
  exists w' v, convert_ddb_to_normal_wrapping top fuel rd w rb xb is_pretty mode = Done (w', v) /\
    (convert_ddb_to_normal fuel rd w rb xb is_pretty mode = Panic \/ convert_ddb_to_normal fuel rd w rb xb is_pretty mode = Done (w', v)).
Proof.
  intros H8 Hf Ht. destruct (wrapping_ends top fuel rd w rb xb is_pretty mode H8 Hf) as (w' & v & E). exists w', v. split; [exact E|].
  destruct (wrapping_same top fuel rd w rb xb is_pretty mode Ht) as [P|P]; [left; exact P|right]. rewrite <- P. exact E.
Qed.
