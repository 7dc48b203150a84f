(** Model of examples/dynamodb/src/ddb_to_normal.rs with the flag [unbuffered]. Only what depends on the flag is here, the rest is in
    DdbToNormal.v. No proofs here. *)
From Verif Require Import Base U8Pool Buffer Jiter RJiter Scan Conv DdbToNormal FlushConv.

Section Flag.
Context (unbuffered : bool).
Local Notation fl_put := (fl_put unbuffered).
Local Notation fl_newline := (fl_newline unbuffered).
Local Notation fl_write_comma := (fl_write_comma unbuffered).
Local Notation fl_indent := (fl_indent unbuffered).
Local Notation flush_long := (flush_long unbuffered).

(** 176-189 [on_root_object_begin]. *)
Definition fl_on_root_object_begin : action d2n := act_of
  (on_base (fl_put [LBRACE] "writing root object opening brace" ;; fl_newline ;; change_to (fun c => set_level c 1))) OpNone.

(** 192-220 [on_field_key]. *)
Definition fl_on_field_key : action d2n := fun r c =>
  match field (base c) with
  | None => Done (r, c, OpError "Internal error: current_field not set (impossible)")
  | Some name =>
      act_of (on_base (fl_write_comma ;; fl_indent ;; fl_put [QUOTE] "writing field name opening quote" ;;
                       fl_put name "writing field name" ;;
                       fl_put (bs """:") "writing field name closing quote and colon" ;; comma_is false) ;;
              phase_is ExpectingTypeKey) OpNone r c
  end.

(** 224-275 [write_string_value]; all callers pass [true] for [write_comma_if_pending]. *)
Definition fl_write_string_value (with_quotes : bool) (peek_context write_context : string) : action d2n := fun r c =>
  do (r, v) <- peek r;
  match v with
  | Err e => Done (r, store_rjiter_error c e peek_context, OpError "Failed to peek string value")
  | Ok p =>
      if negb (N.eqb p QUOTE) then Done (r, c, OpError "Expected string value")
      else
        do (c, v) <- on_base (fl_write_comma ;; if with_quotes then fl_put [QUOTE] "writing opening quote" else skip) c;
        match v with
        | Err m => Done (r, c, OpError m)
        | Ok _ =>
            do (r, w, v) <- write_long_bytes r (cout (base c));
            let c := set_base c (set_cout (base c) w) in
            match v with
            | Err e => Done (r, store_rjiter_error c e write_context, OpError "Failed to write value")
            | Ok _ =>
                act_of (on_base flush_long ;; on_base ((if with_quotes then fl_put [QUOTE] "writing closing quote" else skip) ;; comma_is true))
                  ValueIsConsumed r c
            end
        end
  end.

(** 278-315 [handle_bool_based_type]. *)
Definition fl_handle_bool_based_type (validate : byte -> result bytes string) (type_name : string) : action d2n := fun r c =>
  do (r, v) <- peek r;
  match v with
  | Err e => Done (r, store_rjiter_error c e type_name, OpError "Failed to peek value")
  | Ok p =>
      match validate p with
      | Err m => Done (r, c, OpError m)
      | Ok output =>
          do (c, v) <- on_base fl_write_comma c;
          match v with
          | Err m => Done (r, c, OpError m)
          | Ok _ =>
              do (r, v) <- known_bool p r;
              match v with
              | Err e => Done (r, store_rjiter_error c e type_name, OpError "Failed to consume boolean value")
              | Ok _ => act_of (on_base (fl_put output type_name ;; comma_is true) ;; type_is None) ValueIsConsumed r c
              end
          end
      end
  end.
(** 318-439 [on_type_key]. *)
Definition fl_on_type_key : action d2n := fun r c =>
  match field (base c) with
  | None => Done (r, c, OpError "current_field should be set for type key")
  | Some key =>
      if beq key (bs "S") || beq key (bs "B") then
        finally (fun c => set_phase (set_type c None) ExpectingValue)
          (fl_write_string_value true "S/B (string) type" "S/B (string) type") r c
      else if beq key (bs "N") then
        finally (fun c => set_phase (set_type c None) ExpectingValue)
          (fl_write_string_value false "N (number) type" "N (number) type") r c
      else if beq key (bs "BOOL") then
        finally (fun c => set_phase c ExpectingValue) (fl_handle_bool_based_type bool_output "BOOL type") r c
      else if beq key (bs "NULL") then
        finally (fun c => set_phase c ExpectingValue) (fl_handle_bool_based_type null_output "NULL type") r c
      else if beq key (bs "SS") || beq key (bs "BS") then
        act_of (on_base (fl_put [LBRACK] "writing SS/BS opening bracket" ;; comma_is false) ;; type_is (Some TSS) ;;
                phase_is ExpectingValue) OpNone r c
      else if beq key (bs "NS") then
        act_of (on_base (fl_put [LBRACK] "writing NS opening bracket" ;; comma_is false) ;; type_is (Some TNS) ;;
                phase_is ExpectingValue) OpNone r c
      else if beq key (bs "L") then
        act_of (on_base (fl_write_comma ;; fl_put [LBRACK] "writing L opening bracket" ;; comma_is false) ;; type_is (Some TL) ;;
                phase_is ExpectingTypeKey) OpNone r c
      else if beq key (bs "M") then
        act_of (on_base (fl_write_comma ;; fl_put [LBRACE] "writing M opening brace" ;; fl_newline ;; deeper ;; comma_is false) ;;
                type_is (Some TM) ;; phase_is ExpectingField) OpNone r c
      else
        Done (r, store_parse_error c "Invalid DynamoDB JSON format: unknown type descriptor" (Some key),
              OpError "Unknown type descriptor")
  end.

(** 443-456 [on_set_string_element], 458-471 [on_set_number_element]. *)
Definition fl_on_set_string_element : action d2n :=
  fl_write_string_value true "peeking SS/BS (string set) element" "writing SS/BS (string set) element".
Definition fl_on_set_number_element : action d2n :=
  fl_write_string_value false "peeking NS (number set) element" "writing NS (number set) element".
(** 481-538 [find_action_object]. *)
Definition fl_find_action_object (path : list bytes) (c : d2n) : d2n * option (action d2n) :=
  if level (base c) =? 0 then (c, Some fl_on_root_object_begin)
  else
    match at_phase c with
    | ExpectingValue =>
        (store_parse_error c "Invalid DynamoDB JSON format: unexpected object value" None, Some on_error)
    | ExpectingTypeKey =>
        match current_type c with
        | Some TL =>
            (store_parse_error c "Invalid DynamoDB JSON format: L type expects an array value, not an object" None, Some on_error)
        | _ => (c, None)
        end
    | ExpectingField => (c, None)
    | TypeKeyConsumed =>
        if parent_is (bs "#array") path then (c, None)
        else (store_parse_error c "Invalid DynamoDB JSON format: unexpected nested object in type descriptor" None, Some on_error)
    end.
(** 540-618 [find_action_key]. *)
Definition fl_find_action_key (mode : wrapper_mode) (path : list bytes) (c : d2n) : d2n * option (action d2n) :=
  match path with
  | [] => (c, None)
  | key :: path' =>
      let note := set_base c (set_field (base c) key) in
      match at_phase c with
      | ExpectingField =>
          if beq key (bs "Item") && match mode with AsWrapper => parent_is (bs "#top") path' | AsField => false end then (c, None)
          else (note, Some fl_on_field_key)
      | ExpectingTypeKey => (note, Some fl_on_type_key)
      | ExpectingValue =>
          if in_set (current_type c) then (note, Some fl_on_type_key)
          else (store_parse_error c "Unexpected key in ExpectingValue phase (not in set)" None, Some on_error)
      | TypeKeyConsumed => (note, Some fl_on_field_key)
      end
  end.
(** 650-687 [find_action_atom]. *)
Definition fl_find_action_atom (path : list bytes) (c : d2n) : d2n * option (action d2n) :=
  let refuse := (store_parse_error c
    "Invalid DynamoDB JSON format: Expected array for set type, atom values only allowed as set elements" None, Some on_error) in
  match at_phase c with
  | ExpectingValue =>
      if parent_is (bs "#array") path then
        match current_type c with
        | Some TSS => (c, Some fl_on_set_string_element)
        | Some TNS => (c, Some fl_on_set_number_element)
        | _ => refuse
        end
      else refuse
  | _ => refuse
  end.
(** 689-706 [find_action]. *)
Definition fl_d2n_find_action (mode : wrapper_mode) (name : pseudoname) (x : context) (c : d2n) : d2n * option (action d2n) :=
  match name with
  | PObject => fl_find_action_object (names x) c
  | PNone => fl_find_action_key mode (names x) c
  | PArray => find_action_array c
  | PAtom => fl_find_action_atom (names x) c
  end.

(** 708-723 [on_list_end]. *)
Definition fl_on_list_end : end_action d2n := fun c =>
  match at_phase c with
  | ExpectingTypeKey =>
      (on_base (fl_put [RBRACK] "writing L closing bracket" ;; comma_is true) ;; phase_is ExpectingValue ;; type_is None) c
  | _ => Done (c, Err "Invalid phase when ending L array (expected ExpectingTypeKey)"%string)
  end.
(** 726-735 [on_set_end]. *)
Definition fl_on_set_end : end_action d2n :=
  on_base (fl_put [RBRACK] "writing SS/NS/BS closing bracket" ;; comma_is true) ;; type_is None ;; phase_is ExpectingValue.
(** 738-750 [on_map_end]. *)
Definition fl_on_map_end : end_action d2n :=
  on_base (fl_newline ;; shallower ;; fl_indent ;; fl_put [RBRACE] "writing M closing brace" ;; comma_is true) ;;
  type_is None ;; phase_is TypeKeyConsumed.
(** 753-759 [on_map_end_in_array]. *)
Definition fl_on_map_end_in_array : end_action d2n := fl_on_map_end ;; phase_is ExpectingTypeKey.
(** 783-795 [on_root_object_end]. *)
Definition fl_on_root_object_end : end_action d2n :=
  on_base (fl_newline ;; fl_put [RBRACE] "writing root object closing brace" ;; fl_put [10%N] "writing final newline" ;;
           comma_is false ;; change_to (fun c => set_level c 0)) ;;
  phase_is ExpectingField.
(** 820-887 [find_end_action_key]. For the key [Item] one name of the context is consumed before the parent is looked at. *)
Definition fl_find_end_action_key (mode : wrapper_mode) (path : list bytes) (c : d2n) : option (end_action d2n) :=
  match path with
  | [] => None
  | key :: path' =>
      match at_phase c with
      | ExpectingValue =>
          Some (if parent_is (bs "#array") path' then on_type_key_end_in_array else on_transition_to_type_key_consumed)
      | TypeKeyConsumed =>
          Some (if parent_is (bs "#array") path' then on_type_key_end_in_array else on_type_key_end)
      | ExpectingField =>
          let is_item := beq key (bs "Item") in
          if is_item && parent_is (bs "#top") path' && match mode with AsWrapper => true | AsField => false end then None
          else
            let parents := if is_item then tl path' else path' in
            Some (if parent_is (bs "#array") parents then fl_on_map_end_in_array else fl_on_map_end)
      | ExpectingTypeKey => if is_container key then None else Some on_transition_to_type_key_consumed
      end
  end.
(** 890-917 [find_end_action], 798-807 [find_end_action_object]. *)
Definition fl_d2n_find_end_action (mode : wrapper_mode) (name : pseudoname) (x : context) (c : d2n) : d2n * option (end_action d2n) :=
  (c, match name with
      | PArray =>
          match at_phase c with
          | ExpectingTypeKey => Some fl_on_list_end
          | ExpectingValue => Some fl_on_set_end
          | _ => None
          end
      | PObject => if ctx_len x =? 1 then Some fl_on_root_object_end else None
      | PNone => fl_find_end_action_key mode (names x) c
      | PAtom => None
      end).
Definition fl_d2n_callbacks (mode : wrapper_mode) : callbacks d2n := mkCallbacks (fl_d2n_find_action mode) (fl_d2n_find_end_action mode).

(** 940-1007 [convert_ddb_to_normal]. *)
Definition fl_convert_ddb_to_normal (fuel : nat) (rd : reader) (w : writer) (rjiter_buffer context_buffer : bytes)
  (is_pretty : bool) (mode : wrapper_mode) : outcome (writer * result unit (conversion_error * nat)) :=
  do (c, v) <- convert (fl_d2n_callbacks mode) base 68 fuel rd rjiter_buffer context_buffer (d2n_new w is_pretty);
  Done (cout (base c), v).
End Flag.
