(** Model of examples/dynamodb/src/normal_to_ddb.rs. No proofs here. *)
From Verif Require Import Base U8Pool Buffer Jiter RJiter Scan Conv.

(** 82-116 [on_root_object_begin]. *)
Definition on_root_object_begin (wrapper : bool) : action conv := act_of
  (if wrapper then
     put [LBRACE] "writing root object opening brace" ;; newline ;; deeper ;; indent ;;
     put (bs """Item"":{") "writing Item wrapper" ;; newline ;; deeper ;; comma_is false
   else
     put [LBRACE] "writing root object opening brace" ;; newline ;; deeper ;; comma_is false) OpNone.

(** 225-236, 266-277, 299-310, 365-376: the end of the handlers of atoms. *)
Definition close_atom : step conv :=
  newline ;; shallower ;; indent ;; put [RBRACE] "writing closing brace" ;; comma_is true.

(** 199-237 [on_string_value_toddb]. The call of [write_long_bytes] gets the writer itself: its errors are not stored. *)
Definition on_string_value : action conv := fun r c =>
  do (c, v) <- (indent ;; put (bs """S"":""") "writing S type opening") c;
  match v with
  | Err m => Done (r, c, OpError m)
  | Ok _ =>
      do (r, w, v) <- write_long_bytes r (cout c);
      let c := set_cout c w in
      match v with
      | Err _ => Done (r, c, OpError "Failed to write string value")
      | Ok _ => act_of (put [QUOTE] "writing S type closing quote" ;; close_atom) ValueIsConsumed r c
      end
  end.

(** 239-278 [on_bool_value_toddb]. The result of [known_bool] is ignored. *)
Definition on_bool_value : action conv := fun r c =>
  do (r, v) <- peek r;
  match v with
  | Err _ => Done (r, c, OpError "Failed to peek boolean value")
  | Ok p =>
      do (c, v) <- indent c;
      match v with
      | Err m => Done (r, c, OpError m)
      | Ok _ =>
          if N.eqb p PeekTrue then
            do (r, _) <- known_bool p r;
            act_of (put (bs """BOOL"":true") "writing BOOL true" ;; close_atom) ValueIsConsumed r c
          else if N.eqb p PeekFalse then
            do (r, _) <- known_bool p r;
            act_of (put (bs """BOOL"":false") "writing BOOL false" ;; close_atom) ValueIsConsumed r c
          else Done (r, c, OpError "Expected boolean value")
      end
  end.

(** 280-311 [on_null_value_toddb]. The result of [known_null] is ignored. *)
Definition on_null_value : action conv := fun r c =>
  do (r, v) <- peek r;
  match v with
  | Err _ => Done (r, c, OpError "Failed to peek null value")
  | Ok p =>
      if N.eqb p PeekNull then
        do (r, _) <- known_null r;
        act_of (indent ;; put (bs """NULL"":true") "writing NULL type" ;; close_atom) ValueIsConsumed r c
      else Done (r, c, OpError "Expected null value")
  end.

(** 313-379 [on_atom_value_toddb]. *)
Definition on_atom_value : action conv := fun r c =>
  do (c, v) <- write_comma c;
  match v with
  | Err m => Done (r, c, OpError m)
  | Ok _ =>
      do (r, v) <- peek r;
      match v with
      | Err _ => Done (r, c, OpError "Failed to peek atom value")
      | Ok p =>
          if N.eqb p QUOTE then on_string_value r c
          else if N.eqb p PeekTrue || N.eqb p PeekFalse then on_bool_value r c
          else if N.eqb p PeekNull then on_null_value r c
          else
            do (r, v) <- next_number_bytes r;
            match v with
            | Err _ => Done (r, c, OpError "Failed to parse number")
            | Ok number =>
                act_of (indent ;; put (bs """N"":""") "writing N type opening" ;;
                        put (firstn 32 number) "writing number value" ;;
                        put [QUOTE] "writing N type closing quote" ;; close_atom) ValueIsConsumed r c
            end
      end
  end.

(** 118-141 [on_root_literal]: the final line feed is written even if the atom failed, and only then is the answer given. *)
Definition on_root_literal : action conv := fun r c =>
  do (c, v) <- (put [LBRACE] "writing root literal opening brace" ;; deeper) c;
  match v with
  | Err m => Done (r, c, OpError m)
  | Ok _ =>
      do (r, c, op) <- on_atom_value r c;
      act_of (put [10%N] "writing final newline" ;; comma_is false) op r c
  end.

(** 381-397 [on_array_begin_toddb]. *)
Definition array_begin : step conv := indent ;; put (bs """L"":[") "writing L type opening" ;; newline ;; comma_is false.
Definition on_array_begin : action conv := act_of array_begin OpNone.
(** 143-158 [on_root_array]. *)
Definition on_root_array : action conv := act_of
  (put [LBRACE] "writing root array opening brace" ;; newline ;; deeper ;; array_begin) OpNone.
(** 468-485 [on_nested_object_begin_toddb]. *)
Definition nested_object_begin : step conv :=
  indent ;; put (bs """M"":{") "writing M type opening" ;; newline ;; deeper ;; comma_is false.
Definition on_nested_object_begin : action conv := act_of nested_object_begin OpNone.
(** 404-417, 427-440, 450-463: the begin of an element of an array. *)
Definition element_begin : step conv :=
  write_comma ;; put [LBRACE] "writing array element opening brace" ;; newline ;; deeper ;; comma_is false.
(** 399-420 [on_array_element_atom]. *)
Definition on_array_element_atom : action conv := fun r c =>
  do (c, v) <- element_begin c;
  match v with
  | Err m => Done (r, c, OpError m)
  | Ok _ => on_atom_value r c
  end.
(** 422-443 [on_array_element_array]. *)
Definition on_array_element_array : action conv := act_of (element_begin ;; array_begin) OpNone.
(** 445-466 [on_array_element_object]. *)
Definition on_array_element_object : action conv := act_of (element_begin ;; nested_object_begin) OpNone.

(** 168-197 [on_field_key]. *)
Definition on_field_key : action conv := fun r c =>
  match field c with
  | None => Done (r, c, OpError "Internal error: current_field not set (impossible)")
  | Some name =>
      act_of (write_comma ;; indent ;; put [QUOTE] "writing field name opening quote" ;;
              put name "writing field name" ;;
              put (bs """:{") "writing field name closing quote and colon" ;; newline ;; deeper ;; comma_is false) OpNone r c
  end.

(** 488-504 [on_root_object_end]. *)
Definition on_root_object_end (wrapper : bool) : end_action conv :=
  newline ;; shallower ;; indent ;;
  (if wrapper then
     put [RBRACE] "writing root object closing brace" ;; newline ;; shallower ;; indent ;;
     put [RBRACE] "writing Item wrapper closing brace"
   else put [RBRACE] "writing root object closing brace") ;;
  put [10%N] "writing final newline".
(** 507-521 [on_nested_object_end] and 548-563 [on_object_in_array_end], which are the same. *)
Definition on_nested_object_end : end_action conv :=
  newline ;; shallower ;; indent ;; put [RBRACE] "writing M closing brace" ;; newline ;; shallower ;; indent ;;
  put [RBRACE] "writing element wrapper closing brace" ;; comma_is true.
(** 524-535 [on_array_end_toddb] and 566-580 [on_array_in_array_end], which are the same. *)
Definition on_array_end : end_action conv :=
  newline ;; indent ;; put [RBRACK] "writing L closing bracket" ;; newline ;; shallower ;; indent ;;
  put [RBRACE] "writing element wrapper closing brace" ;; comma_is true.
(** 160-166 [on_root_array_end]. *)
Definition on_root_array_end : end_action conv := on_array_end ;; put [10%N] "writing final newline".
(** 538-545 [on_array_element_end_toddb]. *)
Definition on_array_element_end : end_action conv := skip.

(** 582-653 [find_action]. *)
Definition n2d_find_action (wrapper : bool) (name : pseudoname) (x : context) (c : conv) : conv * option (action conv) :=
  match names x with
  | [] =>
      (c, match name with
          | PAtom => Some on_atom_value
          | PArray => Some on_array_begin
          | PObject | PNone => None
          end)
  | parent :: _ =>
      if beq parent (bs "#top") then
        (c, match name with
            | PObject => Some (on_root_object_begin wrapper)
            | PAtom => Some on_root_literal
            | PArray => Some on_root_array
            | PNone => None
            end)
      else
        let in_array := beq parent (bs "#array") in
        match name with
        | PNone => (set_field c parent, Some on_field_key)
        | PAtom => (c, Some (if in_array then on_array_element_atom else on_atom_value))
        | PArray => (c, Some (if in_array then on_array_element_array else on_array_begin))
        | PObject => (c, Some (if in_array then on_array_element_object else on_nested_object_begin))
        end
  end.

(** 655-708 [find_end_action]. *)
Definition n2d_find_end_action (wrapper : bool) (name : pseudoname) (x : context) (c : conv) : conv * option (end_action conv) :=
  (c, match names x with
      | [] => None
      | parent :: path =>
          if beq parent (bs "#top") then
            match name with
            | PObject => Some (on_root_object_end wrapper)
            | PArray => Some on_root_array_end
            | PAtom | PNone => None
            end
          else
            match name with
            | PObject => Some on_nested_object_end
            | PArray => Some on_array_end
            | PAtom =>
                if beq parent (bs "#array") then
                  match path with
                  | grandparent :: _ => if beq grandparent (bs "L") then Some on_array_element_end else None
                  | [] => None
                  end
                else None
            | PNone => None
            end
      end).
Definition n2d_callbacks (wrapper : bool) : callbacks conv := mkCallbacks (n2d_find_action wrapper) (n2d_find_end_action wrapper).

(** 731-795 [convert_normal_to_ddb]. *)
Definition convert_normal_to_ddb (fuel : nat) (rd : reader) (w : writer) (rjiter_buffer context_buffer : bytes)
  (is_pretty with_item_wrapper : bool) : outcome (writer * result unit (conversion_error * nat)) :=
  do (c, v) <- convert (n2d_callbacks with_item_wrapper) (fun c => c) 34 fuel rd rjiter_buffer context_buffer (conv_new w is_pretty);
  Done (cout c, v).
