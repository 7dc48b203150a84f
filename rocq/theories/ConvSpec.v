(** Specification side of the converters: what is asked of a call. *)
From Verif Require Import Base U8Pool Buffer RJiter RJiterSpec Scan ScanSpec IdSpec Conv DdbToNormal DdbSpec.

(** The dimensions of the context pool. *)
Definition pool_dims (slots : N) (context_buffer : bytes) : dims := mkDims slots (len context_buffer - N.to_nat (slots * 4)).
(** Room for the names: examples/dynamodb/src/normal_to_ddb.rs:748 has 34 slots, ddb_to_normal.rs:960 has 68; one name is
    always "#top". *)
Definition n2d_room (context_buffer : bytes) (vs : list json) : Prop :=
  141 <= len context_buffer /\ Forall (has_room (pool_dims 34 context_buffer)) vs.
Definition d2n_room (context_buffer : bytes) (vs : list json) : Prop :=
  277 <= len context_buffer /\ Forall (has_room (pool_dims 68 context_buffer)) vs.
(** Whether the item is wrapped agrees with what is expected. *)
Definition agrees (mode : wrapper_mode) (wrapped : bool) (ms : list (bytes * ddb)) : Prop :=
  mode = AsWrapper /\ (wrapped = true \/ ~ In (bs "Item") (map fst ms)) \/ mode = AsField /\ wrapped = false.
(** The writer fails with an error of kind [k], in front of the bytes [b] of the text [a ++ b]. *)
Definition cut_off (w : writer) (text : bytes) (w' : writer) (k : io_kind) : Prop :=
  exists a b, text = a ++ b /\ b <> [] /\ worn w a w' k.
(** A stream of items, wrapped or not. *)
Definition item_stream := list (bool * list (bytes * ddb)).
Definition item_of (x : bool * list (bytes * ddb)) : json := item_json (fst x) (snd x).
(** The converter is made for this item. *)
Definition fit (mode : wrapper_mode) (x : bool * list (bytes * ddb)) : Prop := convertible_item (snd x) /\ agrees mode (fst x) (snd x).
Definition names_of (v : json) : list bytes := match v with JObject ms => map fst ms | _ => [] end.
(** The mode of the way back fits the way there. *)
Definition way_back (wrapper : bool) (mode : wrapper_mode) (v : json) : Prop :=
  mode = AsWrapper /\ (wrapper = true \/ ~ In (bs "Item") (names_of v)) \/ mode = AsField /\ wrapper = false.
(** The output can be read again: it is in the buffer as a whole, or the reader fills the buffer, or it is pretty-printed. *)
Definition readable (m : setting) (pretty : bool) : Prop :=
  match m with InBuffer _ => True | InChunks c _ => 8 < c /\ pretty = true | Filling c _ pad => 8 + pad < c | Anyhow _ _ => False end.
(** ... if there are no keys for which the buffer is too small. *)
Definition tight (m : setting) (pretty : bool) : setting :=
  match m with Filling c b pad => if pretty then m else Filling (c - pad) b pad | _ => m end.
