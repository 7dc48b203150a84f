(** Model of examples/dynamodb/src/ddb_to_normal.rs in a build without overflow checks, cargo's release profile
    (examples/dynamodb/Cargo.toml sets no profile): [output_depth] is counted modulo the word size. [top] is the largest [usize].
    Only what differs from DdbToNormal.v is here. No proofs here. *)
From Verif Require Import Base U8Pool Buffer Jiter RJiter Scan Conv DdbToNormal.

(** 741 [output_depth -= 1]. *)
Definition shallower_wrapping (top : nat) : step conv :=
  change_to (fun c => set_level c (match level c with 0 => top | S n => n end)).
(** 425 [output_depth += 1], together with [deeper]. No action looks at the depth after changing it, so that this is done
    at the end of the action. *)
Definition wrap (top : nat) (c : d2n) : d2n := if level (base c) <=? top then c else set_base c (set_level (base c) 0).

(** 689-706 [find_action]. *)
Definition find_action_wrapping (top : nat) (mode : wrapper_mode) (name : pseudoname) (x : context) (c : d2n) : d2n * option (action d2n) :=
  let '(c1, a) := d2n_find_action mode name x c in (c1, option_map (finally (wrap top)) a).

(** 738-750 [on_map_end]. *)
Definition on_map_end_wrapping (top : nat) : end_action d2n :=
  on_base (newline ;; shallower_wrapping top ;; indent ;; put [RBRACE] "writing M closing brace" ;; comma_is true) ;;
  type_is None ;; phase_is TypeKeyConsumed.
(** 753-759 [on_map_end_in_array]. *)
Definition on_map_end_in_array_wrapping (top : nat) : end_action d2n := on_map_end_wrapping top ;; phase_is ExpectingTypeKey.
(** 820-887 [find_end_action_key]. *)
Definition find_end_action_key_wrapping (top : nat) (mode : wrapper_mode) (path : list bytes) (c : d2n) : option (end_action d2n) :=
  match path with
  | [] => None
  | key :: path' =>
      match at_phase c with
      | ExpectingValue =>
          Some (if parent_is (bs "#array") path' then on_type_key_end_in_array else on_transition_to_type_key_consumed)
      | TypeKeyConsumed =>
          Some (if parent_is (bs "#array") path' then on_type_key_end_in_array else on_type_key_end)
      | ExpectingField =>
          let is_item := beq key (bs "Item") in
          if is_item && parent_is (bs "#top") path' && match mode with AsWrapper => true | AsField => false end then None
          else
            let parents := if is_item then tl path' else path' in
            Some (if parent_is (bs "#array") parents then on_map_end_in_array_wrapping top else on_map_end_wrapping top)
      | ExpectingTypeKey => if is_container key then None else Some on_transition_to_type_key_consumed
      end
  end.
(** 890-917 [find_end_action]. *)
Definition find_end_action_wrapping (top : nat) (mode : wrapper_mode) (name : pseudoname) (x : context) (c : d2n) : d2n * option (end_action d2n) :=
  match name with
  | PNone => (c, find_end_action_key_wrapping top mode (names x) c)
  | _ => d2n_find_end_action mode name x c
  end.
Definition wrapping_callbacks (top : nat) (mode : wrapper_mode) : callbacks d2n :=
  mkCallbacks (find_action_wrapping top mode) (find_end_action_wrapping top mode).

(** 940-1007 [convert_ddb_to_normal]. *)
Definition convert_ddb_to_normal_wrapping (top : nat) (fuel : nat) (rd : reader) (w : writer) (rjiter_buffer context_buffer : bytes)
  (is_pretty : bool) (mode : wrapper_mode) : outcome (writer * result unit (conversion_error * nat)) :=
  do (c, v) <- convert (wrapping_callbacks top mode) base 68 fuel rd rjiter_buffer context_buffer (d2n_new w is_pretty);
  Done (cout (base c), v).
