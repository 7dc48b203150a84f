(** The tests of u8pool, u8pool/tests/stack_tests.rs, dictionary_tests.rs, iterator_tests.rs and assoc_tests.rs, as
    examples: a check of the model, not of the program. Every example has the name and the values of the test it copies;
    the number above it is the line of the test.
    Where a test compares pointers, the example compares what they point to; where it tests the address of a value, the
    example tests its place in the data part of the buffer. *)
From Verif Require Import Base U8Pool.

Definition created (x : outcome (result pool perror)) : pool := match x with Done (Ok p) => p | _ => mkPool 0 0 [] [] end.
Definition with_default_max_slices (n : nat) : pool := created (pool_with_default true (repeat 0%N n)).
Definition new (n : nat) (max : N) : pool := created (pool_new true (repeat 0%N n) max).

(** A [u32] in memory; [struct Point { x: i32, y: i32 }]. *)
Definition word (n : N) : bytes := [(n mod 256)%N; (n / 256 mod 256)%N; (n / 65536 mod 256)%N; (n / 16777216 mod 256)%N].
Definition point_ty : ty := mkTy 8 4.
Definition point (x y : N) : bytes := word x ++ word y.

(** A test is a list of calls, each with what the test asserts about it. *)
Definition step := (pool -> Prop) -> pool -> Prop.
Definition test (p : pool) (l : list step) : Prop := fold_right (fun (x : step) k => x k) (fun _ => True) l p.
Definition sees {A} (f : pool -> outcome A) (v : A) : step := fun k p => f p = Done v /\ k p.
Definition has_len (n : nat) : step := fun k p => pool_len p = n /\ k p.
Definition is_empty (b : bool) : step := fun k p => pool_is_empty p = b /\ k p.
Definition clears : step := fun k p => k (pool_clear p).
Definition pushes (d : bytes) : step := fun k p => match push p d with Done (p', Ok v) => v = d /\ k p' | _ => False end.
Definition push_fails (d : bytes) : step := fun k p => match push p d with Done (p', Err _) => k p' | _ => False end.
Definition pops (v : option bytes) : step := fun k p => match pop p with Done (p', x) => x = v /\ k p' | _ => False end.
Definition gets (i : nat) (v : option bytes) : step := sees (fun p => get p i) v.
Definition tops (v : option bytes) : step := sees top v.
Definition pushes_assoc (t : ty) (a d : bytes) : step := fun k p =>
  match push_assoc p t a d with Done (p', Ok v) => v = (a, d) /\ k p' | _ => False end.
Definition push_assoc_fails (t : ty) (a d : bytes) (e : perror) : step := fun k p =>
  match push_assoc p t a d with Done (p', Err x) => x = e /\ k p' | _ => False end.
Definition push_assoc_overflows (t : ty) (a d : bytes) : step := fun k p =>
  match push_assoc p t a d with Done (p', Err (BufferOverflow _ _)) => k p' | _ => False end.
Definition pops_assoc (t : ty) (v : option (bytes * bytes)) : step := fun k p =>
  match pop_assoc p t with Done (p', x) => x = v /\ k p' | _ => False end.
Definition gets_assoc (t : ty) (i : nat) (v : option (bytes * bytes)) : step := sees (fun p => get_assoc p t i) v.
Definition tops_assoc (t : ty) (v : option (bytes * bytes)) : step := sees (fun p => top_assoc p t) v.
Definition tops_obj (t : ty) (v : option bytes) : step := sees (fun p => top_assoc_obj p t) v.
Definition tops_bytes (t : ty) (v : option bytes) : step := sees (fun p => top_assoc_bytes p t) v.
Definition replaces (t : ty) (d : bytes) : step := fun k p =>
  match replace_top_assoc_bytes p t d with Done (p', Ok v) => v = d /\ k p' | _ => False end.
Definition replace_overflows (t : ty) (d : bytes) : step := fun k p =>
  match replace_top_assoc_bytes p t d with Done (p', Err (BufferOverflow _ _)) => k p' | _ => False end.
Definition replace_is_out_of_bounds (t : ty) (d : bytes) : step := fun k p =>
  match replace_top_assoc_bytes p t d with Done (p', Err (IndexOutOfBounds _ _)) => k p' | _ => False end.
Definition begins_at_multiple_of (i a : nat) : step := fun k p =>
  match desc_get (descriptor p) i with Some (start, _) => start mod a = 0 /\ k p | None => False end.
Definition whole (P : bytes -> Prop) : step := fun k p => P (descriptor p ++ data p) /\ k p.
(** Iterators: what [size_hint] says before each call of [next], and what [next] yields. *)
Fixpoint iterating {I A} (size : I -> nat) (next : I -> A * I) (i : I) (l : list (nat * A)) : Prop :=
  match l with [] => True | (n, v) :: l => size i = n /\ fst (next i) = v /\ iterating size next (snd (next i)) l end.
Definition iterates (l : list (nat * option bytes)) : step := fun k p => iterating fwd_size (iter_next p) (iter_start p) l /\ k p.
Definition iterates_back (l : list (nat * option bytes)) : step := fun k p => iterating (fun n => n) (rev_next p) (rev_start p) l /\ k p.
Definition iterates_pairs (l : list (nat * option (bytes * bytes))) : step := fun k p =>
  iterating pair_size (pair_next p) (iter_start p) l /\ k p.
Definition found {A} (l : list (nat * A)) : list (nat * outcome A) := map (fun x => (fst x, Done (snd x))) l.
Definition iterates_assoc (t : ty) (l : list (nat * option (bytes * bytes))) : step := fun k p =>
  iterating (assoc_size p) (assoc_next p t) 0 (found l) /\ k p.
Definition iterates_assoc_back (t : ty) (l : list (nat * option (bytes * bytes))) : step := fun k p =>
  iterating assoc_rev_size (assoc_rev_next p t) (assoc_rev_start p) (found l) /\ k p.
Fixpoint collected (fuel : nat) (p : pool) (i : fwd_iter) : list (bytes * bytes) :=
  match fuel with
  | 0 => []
  | S fuel => match pair_next p i with (Some x, i) => x :: collected fuel p i | (None, _) => [] end
  end.
Definition has_pairs (l : list (bytes * bytes)) : step := fun k p => collected 100 p (iter_start p) = l /\ k p.

(** * stack_tests.rs *)

(** 4 *)
Example test_buffer_initialization :
  test (with_default_max_slices 600)
    [has_len 0; is_empty true].
Proof. vm_compute. repeat split. Qed.

(** 13 *)
Example test_bounds_checking_empty_buffer :
  match pool_with_default true (repeat 0%N 0) with Done (Err _) => True | _ => False end /\
  test (with_default_max_slices 600) [gets 0 None].
Proof. vm_compute. repeat split. Qed.

(** 24 *)
Example test_pop_empty_vector :
  test (with_default_max_slices 600)
    [pops None].
Proof. vm_compute. repeat split. Qed.

(** 31 *)
Example test_get_out_of_bounds :
  test (with_default_max_slices 600)
    [pushes (bs "test"); gets 1 None].
Proof. vm_compute. repeat split. Qed.

(** 40 *)
Example test_clear_operation :
  test (with_default_max_slices 600)
    [pushes (bs "hello"); pushes (bs "world"); has_len 2; clears; has_len 0; is_empty true].
Proof. vm_compute. repeat split. Qed.

(** 56 *)
Example test_pop_operation :
  test (with_default_max_slices 600)
    [pushes (bs "hello"); pushes (bs "world"); pops (Some (bs "world")); has_len 1; pops (Some (bs "hello")); has_len 0; pops None].
Proof. vm_compute. repeat split. Qed.

(** 75 *)
Example test_custom_max_slices :
  test (new 100 3)
    [pushes (bs "test"); pushes (bs "hello"); pushes (bs "world"); push_fails (bs "fail"); gets 0 (Some (bs "test")); gets 1 (Some (bs "hello")); gets 2 (Some (bs "world")); has_len 3].
Proof. vm_compute. repeat split. Qed.

(** 93 *)
Example test_stack_push_operations :
  test (with_default_max_slices 600)
    [is_empty true; has_len 0; pushes (bs "first"); has_len 1; is_empty false; pushes (bs "second"); has_len 2; pushes (bs "third"); has_len 3; gets 0 (Some (bs "first")); gets 1 (Some (bs "second")); gets 2 (Some (bs "third"))].
Proof. vm_compute. repeat split. Qed.

(** 118 *)
Example test_stack_push_pop_operations :
  test (with_default_max_slices 600)
    [pushes (bs "first"); pushes (bs "second"); pushes (bs "third"); has_len 3; pops (Some (bs "third")); has_len 2; pops (Some (bs "second")); has_len 1; pops (Some (bs "first")); has_len 0; is_empty true; pops None].
Proof. vm_compute. repeat split. Qed.

(** 145 *)
Example test_stack_buffer_overflow :
  test (with_default_max_slices 150)
    [pushes (bs "data1"); pushes (bs "data2"); push_fails (repeat 120%N 20); has_len 2].
Proof. vm_compute. repeat split. Qed.

(** 162 *)
Example test_stack_utility_methods :
  test (with_default_max_slices 600)
    [is_empty true; has_len 0; pushes (bs "element"); is_empty false; has_len 1; pushes (bs "another"); is_empty false; has_len 2; clears; is_empty true; has_len 0].
Proof. vm_compute. repeat split. Qed.

(** 186 *)
Example test_push_returns_reference_to_stored_value :
  test (with_default_max_slices 600)
    [pushes (bs "hello world"); gets 0 (Some (bs "hello world"))].
Proof. vm_compute. repeat split. Qed.

(** 221 *)
Example test_push_returns_independent_references :
  test (with_default_max_slices 600)
    [pushes (bs "first"); gets 0 (Some (bs "first")); pushes (bs "second"); gets 1 (Some (bs "second")); pushes (bs "third"); gets 2 (Some (bs "third")); gets 0 (Some (bs "first")); gets 1 (Some (bs "second")); gets 2 (Some (bs "third"))].
Proof. vm_compute. repeat split. Qed.

(** 266 *)
Example test_push_return_value_with_empty_data :
  test (with_default_max_slices 600)
    [pushes (bs ""); gets 0 (Some (bs ""))].
Proof. vm_compute. repeat split. Qed.

(** 294 *)
Example test_top_basic :
  test (with_default_max_slices 256)
    [pushes (bs "first"); pushes (bs "second"); pushes (bs "third"); tops (Some (bs "third")); has_len 3; gets 0 (Some (bs "first")); gets 1 (Some (bs "second")); gets 2 (Some (bs "third"))].
Proof. vm_compute. repeat split. Qed.

(** 314 *)
Example test_top_empty_pool :
  test (with_default_max_slices 256)
    [tops None].
Proof. vm_compute. repeat split. Qed.

(** 322 *)
Example test_top_single_item :
  test (with_default_max_slices 256)
    [pushes (bs "only"); tops (Some (bs "only")); has_len 1].
Proof. vm_compute. repeat split. Qed.

(** 333 *)
Example test_top_after_pop :
  test (with_default_max_slices 256)
    [pushes (bs "first"); pushes (bs "second"); pushes (bs "third"); pops (Some (bs "third")); tops (Some (bs "second")); has_len 2].
Proof. vm_compute. repeat split. Qed.

(** 348 *)
Example test_top_pointer_equality_with_get :
  test (with_default_max_slices 256)
    [pushes (bs "test data"); tops (Some (bs "test data")); gets 0 (Some (bs "test data"))].
Proof. vm_compute. repeat split. Qed.

(** * dictionary_tests.rs *)

(** 4 *)
Example test_dictionary_iterator_even_elements :
  test (with_default_max_slices 600)
    [pushes (bs "key1"); pushes (bs "value1"); pushes (bs "key2"); pushes (bs "value2"); has_pairs [(bs "key1", bs "value1"); (bs "key2", bs "value2")]].
Proof. vm_compute. repeat split. Qed.

(** 20 *)
Example test_dictionary_iterator_odd_elements :
  test (with_default_max_slices 600)
    [pushes (bs "key1"); pushes (bs "value1"); pushes (bs "key2"); has_pairs [(bs "key1", bs "value1")]].
Proof. vm_compute. repeat split. Qed.

(** 34 *)
Example test_dictionary_iterator_empty :
  test (with_default_max_slices 600)
    [has_pairs []].
Proof. vm_compute. repeat split. Qed.

(** 43 *)
Example test_dictionary_iterator_single_key :
  test (with_default_max_slices 600)
    [pushes (bs "lonely_key"); has_pairs []].
Proof. vm_compute. repeat split. Qed.

(** 54 *)
Example test_mixed_usage_vector_and_dictionary :
  test (with_default_max_slices 600)
    [pushes (bs "name"); pushes (bs "Alice"); pushes (bs "age"); pushes (bs "30"); has_len 4; gets 0 (Some (bs "name")); gets 1 (Some (bs "Alice")); has_pairs [(bs "name", bs "Alice"); (bs "age", bs "30")]; pops (Some (bs "30")); has_pairs [(bs "name", bs "Alice")]].
Proof. vm_compute. repeat split. Qed.

(** * iterator_tests.rs *)

(** 10 *)
Example test_iterator_empty_vector :
  test (with_default_max_slices 600)
    [iterates [(0, None)]].
Proof. vm_compute. repeat split. Qed.

(** 20 *)
Example test_iterator_populated_vector :
  test (with_default_max_slices 600)
    [pushes (bs "hello"); pushes (bs "world"); pushes (bs "test"); iterates [(3, Some (bs "hello")); (2, Some (bs "world")); (1, Some (bs "test")); (0, None)]].
Proof. vm_compute. repeat split. Qed.

(** 44 *)
Example test_iterator_single_item :
  test (with_default_max_slices 600)
    [pushes (bs "only"); iterates [(1, Some (bs "only")); (0, None)]].
Proof. vm_compute. repeat split. Qed.

(** 58 *)
Example test_iterator_size_hint :
  test (with_default_max_slices 600)
    [pushes (bs "first"); pushes (bs "second"); pushes (bs "third"); iterates [(3, Some (bs "first")); (2, Some (bs "second")); (1, Some (bs "third")); (0, None)]].
Proof. vm_compute. repeat split. Qed.

(** 80 *)
Example test_reverse_iterator_populated_vector :
  test (with_default_max_slices 600)
    [pushes (bs "first"); pushes (bs "second"); pushes (bs "third"); iterates_back [(3, Some (bs "third")); (2, Some (bs "second")); (1, Some (bs "first")); (0, None)]].
Proof. vm_compute. repeat split. Qed.

(** 96 *)
Example test_reverse_iterator_empty_vector :
  test (with_default_max_slices 600)
    [iterates_back [(0, None)]].
Proof. vm_compute. repeat split. Qed.

(** 105 *)
Example test_reverse_iterator_single_item :
  test (with_default_max_slices 600)
    [pushes (bs "only"); iterates_back [(1, Some (bs "only")); (0, None)]].
Proof. vm_compute. repeat split. Qed.

(** 117 *)
Example test_reverse_iterator_size_hint :
  test (with_default_max_slices 600)
    [pushes (bs "first"); pushes (bs "second"); pushes (bs "third"); iterates_back [(3, Some (bs "third")); (2, Some (bs "second")); (1, Some (bs "first")); (0, None)]].
Proof. vm_compute. repeat split. Qed.

(** 139 *)
Example test_reverse_iterator_compare_with_forward :
  test (with_default_max_slices 600)
    [pushes (bs "alpha"); pushes (bs "beta"); pushes (bs "gamma"); pushes (bs "delta"); iterates [(4, Some (bs "alpha")); (3, Some (bs "beta")); (2, Some (bs "gamma")); (1, Some (bs "delta")); (0, None)]; iterates_back [(4, Some (bs "delta")); (3, Some (bs "gamma")); (2, Some (bs "beta")); (1, Some (bs "alpha")); (0, None)]].
Proof. vm_compute. repeat split. Qed.

(** 156 *)
Example test_iterator_clone :
  test (with_default_max_slices 600)
    [pushes (bs "first"); pushes (bs "second"); pushes (bs "third"); iterates [(3, Some (bs "first")); (2, Some (bs "second")); (1, Some (bs "third")); (0, None)]; iterates [(3, Some (bs "first"))]].
Proof. vm_compute. repeat split. Qed.

(** 187 *)
Example test_reverse_iterator_clone :
  test (with_default_max_slices 600)
    [pushes (bs "first"); pushes (bs "second"); pushes (bs "third"); iterates_back [(3, Some (bs "third")); (2, Some (bs "second")); (1, Some (bs "first")); (0, None)]; iterates_back [(3, Some (bs "third"))]].
Proof. vm_compute. repeat split. Qed.

(** 218 *)
Example test_pair_iterator_clone :
  test (with_default_max_slices 600)
    [pushes (bs "key1"); pushes (bs "value1"); pushes (bs "key2"); pushes (bs "value2"); iterates_pairs [(2, Some (bs "key1", bs "value1")); (1, Some (bs "key2", bs "value2")); (0, None)]; iterates_pairs [(2, Some (bs "key1", bs "value1"))]].
Proof. vm_compute. repeat split. Qed.

(** 249 *)
Example test_assoc_iterator_clone :
  test (with_default_max_slices 600)
    [pushes_assoc point_ty (point 10 20) (bs "first"); pushes_assoc point_ty (point 30 40) (bs "second"); iterates_assoc point_ty [(2, Some (point 10 20, bs "first")); (1, Some (point 30 40, bs "second")); (0, None)]; iterates_assoc point_ty [(2, Some (point 10 20, bs "first"))]].
Proof. vm_compute. repeat split. Qed.

(** 286 *)
Example test_assoc_reverse_iterator_clone :
  test (with_default_max_slices 600)
    [pushes_assoc point_ty (point 10 20) (bs "first"); pushes_assoc point_ty (point 30 40) (bs "second"); iterates_assoc_back point_ty [(2, Some (point 30 40, bs "second")); (1, Some (point 10 20, bs "first")); (0, None)]; iterates_assoc_back point_ty [(2, Some (point 30 40, bs "second"))]].
Proof. vm_compute. repeat split. Qed.

(** * assoc_tests.rs *)

(** 10 *)
Example test_push_pop_assoc_basic :
  test (with_default_max_slices 256)
    [pushes_assoc point_ty (point 42 100) (bs "hello"); has_len 1; gets_assoc point_ty 0 (Some ((point 42 100), (bs "hello"))); pops_assoc point_ty (Some ((point 42 100), (bs "hello"))); has_len 0].
Proof. vm_compute. repeat split. Qed.

(** 31 *)
Example test_push_pop_assoc_multiple :
  test (with_default_max_slices 256)
    [pushes_assoc point_ty (point 10 20) (bs "first"); pushes_assoc point_ty (point 30 40) (bs "second"); pushes_assoc point_ty (point 50 60) (bs "third"); has_len 3; gets_assoc point_ty 0 (Some ((point 10 20), (bs "first"))); gets_assoc point_ty 1 (Some ((point 30 40), (bs "second"))); gets_assoc point_ty 2 (Some ((point 50 60), (bs "third"))); pops_assoc point_ty (Some ((point 50 60), (bs "third"))); has_len 2; pops_assoc point_ty (Some ((point 30 40), (bs "second"))); has_len 1; pops_assoc point_ty (Some ((point 10 20), (bs "first"))); has_len 0].
Proof. vm_compute. repeat split. Qed.

(** 72 *)
Example test_push_assoc_zero_data :
  test (new 64 4)
    [pushes_assoc point_ty (point 123 456) (bs ""); has_len 1; gets_assoc point_ty 0 (Some ((point 123 456), (bs "")))].
Proof. vm_compute. repeat split. Qed.

(** 88 *)
Example test_push_assoc_buffer_overflow :
  test (new 64 2)
    [push_assoc_overflows point_ty (point 42 84) (repeat 0%N 100)].
Proof. vm_compute. repeat split. Qed.

(** 100 *)
Example test_pop_assoc_empty :
  test (new 64 4)
    [pops_assoc point_ty None].
Proof. vm_compute. repeat split. Qed.

(** 109 *)
Example test_get_assoc_out_of_bounds :
  test (with_default_max_slices 256)
    [pushes_assoc point_ty (point 42 84) (bs "data"); gets_assoc point_ty 0 (Some ((point 42 84), (bs "data"))); gets_assoc point_ty 1 None; gets_assoc point_ty 100 None].
Proof. vm_compute. repeat split. Qed.

(** 124 *)
Example test_assoc_mixed_with_regular :
  test (with_default_max_slices 256)
    [pushes (bs "regular1"); pushes_assoc point_ty (point 100 200) (bs "assoc1"); pushes (bs "regular2"); pushes_assoc point_ty (point 300 400) (bs "assoc2"); has_len 4; gets 0 (Some (bs "regular1")); gets 2 (Some (bs "regular2")); gets_assoc point_ty 1 (Some ((point 100 200), (bs "assoc1"))); gets_assoc point_ty 3 (Some ((point 300 400), (bs "assoc2")))].
Proof. vm_compute. repeat split. Qed.

(** 153 *)
Example test_assoc_iterator_forward :
  test (with_default_max_slices 256)
    [pushes_assoc point_ty (point 10 15) (bs "a"); pushes_assoc point_ty (point 20 25) (bs "bb"); pushes_assoc point_ty (point 30 35) (bs "ccc"); iterates_assoc point_ty [(3, Some (point 10 15, bs "a")); (2, Some (point 20 25, bs "bb")); (1, Some (point 30 35, bs "ccc")); (0, None)]].
Proof. vm_compute. repeat split. Qed.

(** 174 *)
Example test_assoc_iterator_reverse :
  test (with_default_max_slices 256)
    [pushes_assoc point_ty (point 10 15) (bs "a"); pushes_assoc point_ty (point 20 25) (bs "bb"); pushes_assoc point_ty (point 30 35) (bs "ccc"); iterates_assoc_back point_ty [(3, Some (point 30 35, bs "ccc")); (2, Some (point 20 25, bs "bb")); (1, Some (point 10 15, bs "a")); (0, None)]].
Proof. vm_compute. repeat split. Qed.

(** 195 *)
Example test_assoc_iterator_empty :
  test (new 64 4)
    [iterates_assoc point_ty [(0, None)]; iterates_assoc_back point_ty [(0, None)]].
Proof. vm_compute. repeat split. Qed.

(** 207 *)
Example test_assoc_size_hint :
  test (with_default_max_slices 256)
    [pushes_assoc point_ty (point 1 2) (bs "a"); pushes_assoc point_ty (point 3 4) (bs "b"); iterates_assoc point_ty [(2, Some (point 1 2, bs "a"))]; iterates_assoc_back point_ty [(2, Some (point 3 4, bs "b"))]].
Proof. vm_compute. repeat split. Qed.

(** 222 *)
Example test_assoc_slice_limit_exceeded :
  test (new 1024 2)
    [pushes_assoc point_ty (point 1 10) (bs "first"); pushes_assoc point_ty (point 2 20) (bs "second"); push_assoc_fails point_ty (point 3 30) (bs "third") (SliceLimitExceeded 2)].
Proof. vm_compute. repeat split. Qed.

(** 238 *)
Example test_alignment_padding :
  test (created (pool_with_default true (repeat 170%N 1024)))
    [pushes (bs "x"); pushes_assoc (mkTy 1 1) ([66]%N) (bs "single"); pushes_assoc (mkTy 2 2) ([52; 18]%N) (bs "two"); pushes_assoc (mkTy 4 4) ([120; 86; 52; 18]%N) (bs "four"); pushes_assoc (mkTy 8 8) ([240; 222; 188; 154; 120; 86; 52; 18]%N) (bs "eight"); pushes_assoc (mkTy 1 1) ([255]%N) (bs "y"); pushes_assoc (mkTy 24 8) ([18]%N ++ repeat 170%N 7 ++ [16; 50; 84; 118; 152; 186; 220; 254]%N ++ [33; 67; 101; 135]%N ++ repeat 170%N 4) (bs "complex"); pops_assoc (mkTy 24 8) (Some (([18]%N ++ repeat 170%N 7 ++ [16; 50; 84; 118; 152; 186; 220; 254]%N ++ [33; 67; 101; 135]%N ++ repeat 170%N 4), (bs "complex"))); pops_assoc (mkTy 1 1) (Some (([255]%N), (bs "y"))); pops_assoc (mkTy 8 8) (Some (([240; 222; 188; 154; 120; 86; 52; 18]%N), (bs "eight"))); pops_assoc (mkTy 4 4) (Some (([120; 86; 52; 18]%N), (bs "four"))); pops_assoc (mkTy 2 2) (Some (([52; 18]%N), (bs "two"))); pops_assoc (mkTy 1 1) (Some (([66]%N), (bs "single"))); pops (Some (bs "x")); whole (fun b =>
       let start i := N.to_nat (nth (4 * i) b 0%N + 256 * nth (4 * i + 1) b 0%N) in
       let untouched i n := firstn n (skipn (28 + start i - n) b) = repeat 170%N n in
       start 2 mod 2 = 0 /\ start 3 mod 4 = 0 /\ start 4 mod 8 = 0 /\ start 6 mod 8 = 0 /\
       untouched 2 1 /\ untouched 3 3 /\ untouched 4 7 /\ untouched 6 7)].
Proof. vm_compute. repeat split. Qed.

(** 438 *)
Example test_push_assoc_returns_references_to_stored_values :
  test (with_default_max_slices 600)
    [pushes_assoc point_ty (point 42 100) (bs "hello world"); gets_assoc point_ty 0 (Some ((point 42 100), (bs "hello world")))].
Proof. vm_compute. repeat split. Qed.

(** 480 *)
Example test_push_assoc_returns_independent_references :
  test (with_default_max_slices 600)
    [pushes_assoc point_ty (point 10 20) (bs "first"); gets_assoc point_ty 0 (Some ((point 10 20), (bs "first"))); pushes_assoc point_ty (point 30 40) (bs "second"); gets_assoc point_ty 1 (Some ((point 30 40), (bs "second"))); pushes_assoc point_ty (point 50 60) (bs "third"); gets_assoc point_ty 2 (Some ((point 50 60), (bs "third")))].
Proof. vm_compute. repeat split. Qed.

(** 547 *)
Example test_push_assoc_return_value_with_empty_data :
  test (with_default_max_slices 600)
    [pushes_assoc point_ty (point 123 456) (bs ""); gets_assoc point_ty 0 (Some ((point 123 456), (bs "")))].
Proof. vm_compute. repeat split. Qed.

(** 582 *)
Example test_push_assoc_pointer_equality_across_different_associated_types :
  test (with_default_max_slices 600)
    [pushes_assoc (mkTy 4 4) ([42; 0; 0; 0]%N) (bs "simple data"); pushes_assoc (mkTy 24 8) ([17; 17; 17; 17; 17; 17; 17; 17]%N ++ [34; 34; 34; 34; 34; 34; 34; 34]%N ++ [51; 51; 51; 51]%N ++ repeat 0%N 4) (bs "big data"); gets_assoc (mkTy 4 4) 0 (Some (([42; 0; 0; 0]%N), (bs "simple data"))); gets_assoc (mkTy 24 8) 1 (Some (([17; 17; 17; 17; 17; 17; 17; 17]%N ++ [34; 34; 34; 34; 34; 34; 34; 34]%N ++ [51; 51; 51; 51]%N ++ repeat 0%N 4), (bs "big data")))].
Proof. vm_compute. repeat split. Qed.

(** 648 *)
Example test_push_assoc_pointer_equality_across_different_data_sizes :
  test (with_default_max_slices 600)
    [pushes_assoc point_ty (point 10 20) (bs "x"); pushes_assoc point_ty (point 30 40) (bs "hello world test data"); pushes_assoc point_ty (point 50 60) (repeat 65%N 100); gets_assoc point_ty 0 (Some ((point 10 20), (bs "x"))); gets_assoc point_ty 1 (Some ((point 30 40), (bs "hello world test data"))); gets_assoc point_ty 2 (Some ((point 50 60), (repeat 65%N 100)))].
Proof. vm_compute. repeat split. Qed.

(** 722 *)
Example test_push_assoc_return_value_with_alignment_requirements :
  test (with_default_max_slices 600)
    [pushes (bs "odd"); pushes_assoc (mkTy 8 8) ([240; 222; 188; 154; 120; 86; 52; 18]%N) (bs "eight"); begins_at_multiple_of 1 8; pushes_assoc (mkTy 4 4) ([120; 86; 52; 18]%N) (bs "four"); begins_at_multiple_of 2 4; gets_assoc (mkTy 8 8) 1 (Some (([240; 222; 188; 154; 120; 86; 52; 18]%N), (bs "eight"))); gets_assoc (mkTy 4 4) 2 (Some (([120; 86; 52; 18]%N), (bs "four")))].
Proof. vm_compute. repeat split. Qed.

(** 795 *)
Example test_replace_top_assoc_bytes_basic :
  test (with_default_max_slices 256)
    [pushes_assoc point_ty (point 42 100) (bs "orig"); has_len 1; replaces point_ty (bs "replaced"); has_len 1; gets_assoc point_ty 0 (Some ((point 42 100), (bs "replaced")))].
Proof. vm_compute. repeat split. Qed.

(** 821 *)
Example test_replace_top_assoc_bytes_empty_pool :
  test (with_default_max_slices 256)
    [replace_is_out_of_bounds point_ty (bs "test")].
Proof. vm_compute. repeat split. Qed.

(** 831 *)
Example test_replace_top_assoc_bytes_buffer_overflow :
  test (new 64 2)
    [pushes_assoc point_ty (point 1 2) (bs "orig"); replace_overflows point_ty (repeat 0%N 100); has_len 1; gets_assoc point_ty 0 (Some ((point 1 2), (bs "orig")))].
Proof. vm_compute. repeat split. Qed.

(** 855 *)
Example test_top_assoc_basic :
  test (with_default_max_slices 256)
    [pushes_assoc point_ty (point 10 20) (bs "first"); pushes_assoc point_ty (point 30 40) (bs "second"); pushes_assoc point_ty (point 50 60) (bs "third"); tops_assoc point_ty (Some ((point 50 60), (bs "third"))); has_len 3; gets_assoc point_ty 0 (Some ((point 10 20), (bs "first"))); gets_assoc point_ty 1 (Some ((point 30 40), (bs "second")))].
Proof. vm_compute. repeat split. Qed.

(** 879 *)
Example test_top_assoc_empty_pool :
  test (with_default_max_slices 256)
    [tops_assoc point_ty None].
Proof. vm_compute. repeat split. Qed.

(** 887 *)
Example test_top_assoc_single_item :
  test (with_default_max_slices 256)
    [pushes_assoc point_ty (point 100 200) (bs "only"); tops_assoc point_ty (Some ((point 100 200), (bs "only"))); has_len 1].
Proof. vm_compute. repeat split. Qed.

(** 899 *)
Example test_top_assoc_after_pop :
  test (with_default_max_slices 256)
    [pushes_assoc point_ty (point 10 20) (bs "first"); pushes_assoc point_ty (point 30 40) (bs "second"); pushes_assoc point_ty (point 50 60) (bs "third"); pops_assoc point_ty (Some ((point 50 60), (bs "third"))); tops_assoc point_ty (Some ((point 30 40), (bs "second"))); has_len 2].
Proof. vm_compute. repeat split. Qed.

(** 917 *)
Example test_top_assoc_obj_basic :
  test (with_default_max_slices 256)
    [pushes_assoc point_ty (point 10 20) (bs "first"); pushes_assoc point_ty (point 30 40) (bs "second"); pushes_assoc point_ty (point 50 60) (bs "third"); tops_obj point_ty (Some (point 50 60)); has_len 3].
Proof. vm_compute. repeat split. Qed.

(** 932 *)
Example test_top_assoc_obj_empty_pool :
  test (with_default_max_slices 256)
    [tops_obj point_ty None].
Proof. vm_compute. repeat split. Qed.

(** 940 *)
Example test_top_assoc_obj_single_item :
  test (with_default_max_slices 256)
    [pushes_assoc point_ty (point 100 200) (bs "only"); tops_obj point_ty (Some (point 100 200)); has_len 1].
Proof. vm_compute. repeat split. Qed.

(** 951 *)
Example test_top_assoc_obj_after_pop :
  test (with_default_max_slices 256)
    [pushes_assoc point_ty (point 10 20) (bs "first"); pushes_assoc point_ty (point 30 40) (bs "second"); pushes_assoc point_ty (point 50 60) (bs "third"); pops_assoc point_ty (Some ((point 50 60), (bs "third"))); tops_obj point_ty (Some (point 30 40)); has_len 2].
Proof. vm_compute. repeat split. Qed.

(** 968 *)
Example test_top_assoc_bytes_basic :
  test (with_default_max_slices 256)
    [pushes_assoc point_ty (point 10 20) (bs "first"); pushes_assoc point_ty (point 30 40) (bs "second"); pushes_assoc point_ty (point 50 60) (bs "third"); tops_bytes point_ty (Some (bs "third")); has_len 3].
Proof. vm_compute. repeat split. Qed.

(** 983 *)
Example test_top_assoc_bytes_empty_pool :
  test (with_default_max_slices 256)
    [tops_bytes point_ty None].
Proof. vm_compute. repeat split. Qed.

(** 991 *)
Example test_top_assoc_bytes_single_item :
  test (with_default_max_slices 256)
    [pushes_assoc point_ty (point 100 200) (bs "only"); tops_bytes point_ty (Some (bs "only")); has_len 1].
Proof. vm_compute. repeat split. Qed.

(** 1002 *)
Example test_top_assoc_bytes_after_pop :
  test (with_default_max_slices 256)
    [pushes_assoc point_ty (point 10 20) (bs "first"); pushes_assoc point_ty (point 30 40) (bs "second"); pushes_assoc point_ty (point 50 60) (bs "third"); pops_assoc point_ty (Some ((point 50 60), (bs "third"))); tops_bytes point_ty (Some (bs "second")); has_len 2].
Proof. vm_compute. repeat split. Qed.

(** 1017 *)
Example test_top_assoc_bytes_empty_data :
  test (with_default_max_slices 256)
    [pushes_assoc point_ty (point 42 84) (bs ""); tops_bytes point_ty (Some (bs "")); has_len 1].
Proof. vm_compute. repeat split. Qed.

(** 1031 *)
Example test_top_pointer_equality :
  test (with_default_max_slices 256)
    [pushes_assoc point_ty (point 42 84) (bs "test data"); tops_assoc point_ty (Some ((point 42 84), (bs "test data"))); tops_obj point_ty (Some (point 42 84)); tops_bytes point_ty (Some (bs "test data"))].
Proof. vm_compute. repeat split. Qed.

(** 1053 *)
Example test_top_methods_with_alignment :
  test (with_default_max_slices 512)
    [pushes (bs "odd"); pushes_assoc (mkTy 8 8) ([240; 222; 188; 154; 120; 86; 52; 18]%N) (bs "aligned data"); tops_assoc (mkTy 8 8) (Some (([240; 222; 188; 154; 120; 86; 52; 18]%N), (bs "aligned data"))); tops_obj (mkTy 8 8) (Some ([240; 222; 188; 154; 120; 86; 52; 18]%N)); tops_bytes (mkTy 8 8) (Some (bs "aligned data")); begins_at_multiple_of 1 8].
Proof. vm_compute. repeat split. Qed.
