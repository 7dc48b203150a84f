(** The tests of the buffer, rjiter/tests/buffer_test.rs, as examples: a check of the model, not of the program.
    Every example has the name and the values of the test it copies. *)
From Verif Require Import Base Buffer.

(** The bytes in the buffer and [n_shifted_out]. *)
Definition view (b : buffer) : bytes * nat := (firstn (n_bytes b) (buf b), n_shifted_out b).
Definition fresh_buffer (input : bytes) (size : nat) : buffer := buffer_new (mkReader input []) (repeat 0%N size).
(** one_byte_reader.rs. *)
Definition one_byte_buffer (input : bytes) (size : nat) : buffer := buffer_new (mkReader input (repeat (Chunk 0) 100)) (repeat 0%N size).
Definition filled (input : bytes) (size : nat) : buffer := fst (read_more (fresh_buffer input size)).
Definition spaces (n : nat) : bytes := repeat 32%N n.
Definition ok_view {X} (x : outcome (buffer * result X rerror)) : option (X * (bytes * nat)) :=
  match x with Done (b, Ok v) => Some (v, view b) | _ => None end.
Definition error_of {X} (x : outcome (buffer * result X rerror)) : option error_type :=
  match x with Done (_, Err e) => Some (err_type e) | _ => None end.
Definition is_ascii_alphabetic (x : byte) : bool := ((65 <=? x) && (x <=? 90) || (97 <=? x) && (x <=? 122))%N.
Definition is_ascii_digit (x : byte) : bool := ((48 <=? x) && (x <=? 57))%N.
Definition is_a (x : byte) : bool := N.eqb x 97.

(** 8 *)
Example test_read_until_full :
  snd (read_more (fresh_buffer (bs "abcdef") 4)) = Ok 4 /\ snd (read_more (filled (bs "abcdef") 4)) = Ok 0.
Proof. split; vm_compute; reflexivity. Qed.
(** 22 *)
Example test_basic_skip_spaces :
  ok_view (skip_spaces (filled (spaces 4 ++ bs "abc") 16) 0) = Some (tt, (bs "abc", 4)).
Proof. vm_compute. reflexivity. Qed.
(** 38 *)
Example test_skip_spaces_from_non_zero_pos :
  ok_view (skip_spaces (filled (spaces 4 ++ bs "abc") 16) 2) = Some (tt, (bs "  abc", 2)).
Proof. vm_compute. reflexivity. Qed.
(** 54 *)
Example test_skip_spaces_with_one_read :
  ok_view (skip_spaces (fresh_buffer (spaces 5 ++ bs "abc") 4) 0) = Some (tt, (bs "abc", 5)).
Proof. vm_compute. reflexivity. Qed.
(** 70 *)
Example test_skip_spaces_with_many_reads_and_nonzero_pos :
  ok_view (skip_spaces (fresh_buffer (spaces 19 ++ bs "abc") 4) 2) = Some (tt, (bs "  a", 17)).
Proof. vm_compute. reflexivity. Qed.
(** 86 *)
Example test_skip_spaces_eof_without_non_space :
  ok_view (skip_spaces (fresh_buffer (spaces 5) 4) 0) = Some (tt, (bs "", 5)).
Proof. vm_compute. reflexivity. Qed.
(** 101 *)
Example test_skip_spaces_eof_without_non_space_and_nonzero_pos :
  ok_view (skip_spaces (fresh_buffer (spaces 5) 4) 2) = Some (tt, (bs "  ", 3)).
Proof. vm_compute. reflexivity. Qed.
(** 116 *)
Example sanity_test_shift :
  view (shift_buffer (filled (bs "abcd12345") 10) 3 7) = (bs "abc45", 4).
Proof. vm_compute. reflexivity. Qed.
(** 130 *)
Example test_noop_shift_at_pos0 :
  view (shift_buffer (filled (bs "abc") 4) 0 0) = (bs "abc", 0).
Proof. vm_compute. reflexivity. Qed.
(** 144 *)
Example test_noop_shift_at_pos1 :
  view (shift_buffer (filled (bs "abc") 4) 1 1) = (bs "abc", 0).
Proof. vm_compute. reflexivity. Qed.
(** 158 *)
Example test_noop_shift_at_end_minus1 :
  view (shift_buffer (filled (bs "abc") 4) 2 2) = (bs "abc", 0).
Proof. vm_compute. reflexivity. Qed.
(** 172 *)
Example test_noop_shift_at_end :
  view (shift_buffer (filled (bs "abc") 4) 3 3) = (bs "abc", 0).
Proof. vm_compute. reflexivity. Qed.
(** 186 *)
Example test_shift_pos1_to_pos0 :
  view (shift_buffer (filled (bs "abcd12345") 10) 0 1) = (bs "bcd12345", 1).
Proof. vm_compute. reflexivity. Qed.
(** 199 *)
Example test_shift_preend_to_pos0 :
  view (shift_buffer (filled (bs "abcd12345") 10) 0 8) = (bs "5", 8).
Proof. vm_compute. reflexivity. Qed.
(** 212 *)
Example test_shift_preend_to_pos1 :
  view (shift_buffer (filled (bs "abcd12345") 10) 1 8) = (bs "a5", 7).
Proof. vm_compute. reflexivity. Qed.
(** 225 *)
Example test_shift_end_to_pos0 :
  view (shift_buffer (filled (bs "abcd12345") 10) 0 9) = (bs "", 9).
Proof. vm_compute. reflexivity. Qed.
(** 238 *)
Example test_shift_end_to_pos1 :
  view (shift_buffer (filled (bs "abcd12345") 10) 1 9) = (bs "a", 8).
Proof. vm_compute. reflexivity. Qed.
(** 251 *)
Example test_shift_postend_to_pos0 :
  view (shift_buffer (filled (bs "abcd12345") 10) 0 10) = (bs "", 9).
Proof. vm_compute. reflexivity. Qed.
(** 264 *)
Example test_shift_postend_to_pos1 :
  view (shift_buffer (filled (bs "abcd12345") 10) 1 10) = (bs "a", 8).
Proof. vm_compute. reflexivity. Qed.
(** 328 *)
Example test_collect_while_basic :
  match collect_while (filled (bs "abc123def") 16) is_ascii_alphabetic 0 true with
  | Done (b, Ok (start, offset)) =>
      (start, offset) = (0, 3) /\ slice (buf b) start offset = Some (bs "abc") /\ n_shifted_out b = 0
  | _ => False
  end.
Proof. vm_compute. repeat split. Qed.
(** 346 *)
Example test_collect_while_from_non_zero_pos :
  match collect_while (filled (bs "abc123def") 16) is_ascii_digit 3 true with
  | Done (b, Ok (start, offset)) =>
      (start, offset) = (3, 6) /\ slice (buf b) start offset = Some (bs "123") /\ n_shifted_out b = 0
  | _ => False
  end.
Proof. vm_compute. repeat split. Qed.
(** 364 *)
Example test_collect_while_until_eof :
  match collect_while (filled (bs "abcdef") 16) is_ascii_alphabetic 0 true with
  | Done (b, Ok (start, offset)) =>
      (start, offset) = (0, 6) /\ slice (buf b) start offset = Some (bs "abcdef") /\ n_bytes b = 6
  | _ => False
  end.
Proof. vm_compute. repeat split. Qed.
(** 382 *)
Example test_collect_while_with_shift_from_pos2 :
  match collect_while (fresh_buffer (bs "XXaaaa123") 5) is_a 2 true with
  | Done (b, Ok (start, offset)) =>
      (start, offset) = (0, 4) /\ slice (buf b) start offset = Some (bs "aaaa") /\ fst (view b) = bs "aaaa1" /\ n_shifted_out b = 2
  | _ => False
  end.
Proof. vm_compute. repeat split. Qed.
(** 399 *)
Example test_collect_while_with_shift_from_pos1 :
  match collect_while (fresh_buffer (bs "Xaaaa123") 5) is_a 1 true with
  | Done (b, Ok (start, offset)) =>
      (start, offset) = (0, 4) /\ slice (buf b) start offset = Some (bs "aaaa") /\ fst (view b) = bs "aaaa1" /\ n_shifted_out b = 1
  | _ => False
  end.
Proof. vm_compute. repeat split. Qed.
(** 416 *)
Example test_collect_while_with_shift_from_pos0 :
  error_of (collect_while (fresh_buffer (bs "aaaaa123") 5) is_a 0 true) = Some BufferFull.
Proof. vm_compute. reflexivity. Qed.
(** 435 *)
Example test_collect_while_buffer_full_error :
  error_of (collect_while (fresh_buffer (bs "XXaaaaaaaaaa") 4) is_ascii_alphabetic 2 true) = Some BufferFull.
Proof. vm_compute. reflexivity. Qed.
(** 451 *)
Example test_collect_while_rejection_after_read :
  match collect_while (one_byte_buffer (bs "aaa1") 4) is_a 0 true with
  | Done (b, Ok (start, offset)) =>
      (start, offset) = (0, 3) /\ slice (buf b) start offset = Some (bs "aaa") /\ fst (view b) = bs "aaa1" /\ n_shifted_out b = 0
  | _ => False
  end.
Proof. vm_compute. repeat split. Qed.
(** 467 *)
Example test_collect_while_immediate_rejection :
  match collect_while (filled (bs "123abc") 16) is_ascii_alphabetic 0 true with
  | Done (b, Ok (start, offset)) =>
      (start, offset) = (0, 0) /\ n_shifted_out b = 0
  | _ => False
  end.
Proof. vm_compute. repeat split. Qed.
(** 484 *)
Example test_collect_while_empty_buffer :
  match collect_while (filled (bs "") 16) is_ascii_alphabetic 0 true with
  | Done (b, Ok (start, offset)) =>
      (start, offset) = (0, 0) /\ n_bytes b = 0
  | _ => False
  end.
Proof. vm_compute. repeat split. Qed.
(** 501 *)
Example test_collect_while_no_shift_allowed :
  error_of (collect_while (fresh_buffer (bs "aaaa123") 3) is_a 0 false) = Some BufferFull.
Proof. vm_compute. reflexivity. Qed.
(** 517 *)
Example test_collect_while_rejection_after_multiple_reads :
  match collect_while (one_byte_buffer (bs "Xaaaa111") 5) is_a 1 true with
  | Done (b, Ok (start, offset)) =>
      (start, offset) = (0, 4) /\ slice (buf b) start offset = Some (bs "aaaa") /\ fst (view b) = bs "aaaa1" /\ n_shifted_out b = 1
  | _ => False
  end.
Proof. vm_compute. repeat split. Qed.
(** 534 *)
Example test_collect_count_basic :
  match collect_count (filled (bs "abcdefghi") 16) 3 0 true with
  | Done (b, Ok (start, offset)) =>
      (start, offset) = (0, 3) /\ slice (buf b) start offset = Some (bs "abc") /\ n_shifted_out b = 0
  | _ => False
  end.
Proof. vm_compute. repeat split. Qed.
(** 550 *)
Example test_collect_count_from_non_zero_pos :
  match collect_count (filled (bs "abcdefghi") 16) 3 2 true with
  | Done (b, Ok (start, offset)) =>
      (start, offset) = (2, 5) /\ slice (buf b) start offset = Some (bs "cde") /\ n_shifted_out b = 0
  | _ => False
  end.
Proof. vm_compute. repeat split. Qed.
(** 566 *)
Example test_collect_count_until_eof :
  match collect_count (filled (bs "abc") 16) 10 0 true with
  | Done (b, Ok (start, offset)) =>
      (start, offset) = (0, 3) /\ slice (buf b) start offset = Some (bs "abc") /\ n_bytes b = 3
  | _ => False
  end.
Proof. vm_compute. repeat split. Qed.
(** 582 *)
Example test_collect_count_exact_match :
  match collect_count (filled (bs "abcdef") 16) 6 0 true with
  | Done (b, Ok (start, offset)) =>
      (start, offset) = (0, 6) /\ slice (buf b) start offset = Some (bs "abcdef")
  | _ => False
  end.
Proof. vm_compute. repeat split. Qed.
(** 597 *)
Example test_collect_count_zero_bytes :
  match collect_count (filled (bs "abcdef") 16) 0 0 true with
  | Done (b, Ok (start, offset)) =>
      (start, offset) = (0, 0) /\ n_shifted_out b = 0
  | _ => False
  end.
Proof. vm_compute. repeat split. Qed.
(** 612 *)
Example test_collect_count_with_shift_from_pos2 :
  match collect_count (fresh_buffer (bs "XXabcdefgh") 5) 4 2 true with
  | Done (b, Ok (start, offset)) =>
      (start, offset) = (0, 4) /\ slice (buf b) start offset = Some (bs "abcd") /\ fst (view b) = bs "abcde" /\ n_shifted_out b = 2
  | _ => False
  end.
Proof. vm_compute. repeat split. Qed.
(** 629 *)
Example test_collect_count_with_shift_from_pos1 :
  match collect_count (fresh_buffer (bs "Xabcdefgh") 5) 4 1 true with
  | Done (b, Ok (start, offset)) =>
      (start, offset) = (1, 5) /\ slice (buf b) start offset = Some (bs "abcd") /\ n_shifted_out b = 0
  | _ => False
  end.
Proof. vm_compute. repeat split. Qed.
(** 645 *)
Example test_collect_count_buffer_too_small_from_pos0 :
  error_of (collect_count (fresh_buffer (bs "abcdefgh") 3) 5 0 true) = Some BufferFull.
Proof. vm_compute. reflexivity. Qed.
(** 661 *)
Example test_collect_count_buffer_too_small_even_with_shift :
  error_of (collect_count (fresh_buffer (bs "XXabcdefgh") 4) 5 2 true) = Some BufferFull.
Proof. vm_compute. reflexivity. Qed.
(** 678 *)
Example test_collect_count_no_shift_allowed :
  error_of (collect_count (fresh_buffer (bs "XXabcdefgh") 5) 4 2 false) = Some BufferFull.
Proof. vm_compute. reflexivity. Qed.
(** 695 *)
Example test_collect_count_with_one_byte_reader :
  match collect_count (one_byte_buffer (bs "abcdefgh") 10) 5 0 true with
  | Done (b, Ok (start, offset)) =>
      (start, offset) = (0, 5) /\ slice (buf b) start offset = Some (bs "abcde") /\ n_shifted_out b = 0
  | _ => False
  end.
Proof. vm_compute. repeat split. Qed.
(** 710 *)
Example test_collect_count_empty_buffer :
  match collect_count (filled (bs "") 16) 5 0 true with
  | Done (b, Ok (start, offset)) =>
      (start, offset) = (0, 0) /\ n_bytes b = 0
  | _ => False
  end.
Proof. vm_compute. repeat split. Qed.
(** 725 *)
Example test_collect_count_eof_from_non_zero_pos :
  match collect_count (filled (bs "abc") 16) 10 1 true with
  | Done (b, Ok (start, offset)) =>
      (start, offset) = (1, 3) /\ slice (buf b) start offset = Some (bs "bc")
  | _ => False
  end.
Proof. vm_compute. repeat split. Qed.
(** 740 *)
Example test_collect_count_shift_and_multiple_reads :
  match collect_count (one_byte_buffer (bs "XXabcdefgh") 5) 4 2 true with
  | Done (b, Ok (start, offset)) =>
      (start, offset) = (0, 4) /\ slice (buf b) start offset = Some (bs "abcd") /\ n_shifted_out b = 2
  | _ => False
  end.
Proof. vm_compute. repeat split. Qed.
(** 759 *)
Example test_skip_n_basic :
  ok_view (skip_n (filled (bs "abcdefghi") 16) 3 0) = Some ((3, 3), (bs "abcdefghi", 0)).
Proof. vm_compute. reflexivity. Qed.
(** 776 *)
Example test_skip_n_from_non_zero_pos :
  ok_view (skip_n (filled (bs "abcdefghi") 16) 3 2) = Some ((5, 3), (bs "abcdefghi", 0)).
Proof. vm_compute. reflexivity. Qed.
(** 793 *)
Example test_skip_n_until_eof :
  ok_view (skip_n (filled (bs "abc") 16) 10 0) = Some ((3, 3), (bs "abc", 0)).
Proof. vm_compute. reflexivity. Qed.
(** 811 *)
Example test_skip_n_exact_match :
  ok_view (skip_n (filled (bs "abcdef") 16) 6 0) = Some ((6, 6), (bs "abcdef", 0)).
Proof. vm_compute. reflexivity. Qed.
(** 828 *)
Example test_skip_n_zero_bytes :
  ok_view (skip_n (filled (bs "abcdef") 16) 0 0) = Some ((0, 0), (bs "abcdef", 0)).
Proof. vm_compute. reflexivity. Qed.
(** 845 *)
Example test_skip_n_small_buffer_incremental :
  ok_view (skip_n (fresh_buffer (bs "abcdefghijklmnopqrstuvwxyz") 5) 20 0) = Some ((5, 20), (bs "pqrst", 15)).
Proof. vm_compute. reflexivity. Qed.
(** 863 *)
Example test_skip_n_small_buffer_with_one_byte_reader :
  ok_view (skip_n (one_byte_buffer (bs "abcdefghijklmnop") 4) 10 0) = Some ((2, 10), (bs "ij", 8)).
Proof. vm_compute. reflexivity. Qed.
(** 881 *)
Example test_skip_n_from_pos_then_skip_more :
  match skip_n (filled (bs "abcdefghijklmnop") 16) 3 2 with
  | Done (b, Ok (p, n)) => p = 5 /\ n = 3 /\ view b = (bs "abcdefghijklmnop", 0) /\ ok_view (skip_n b 4 p) = Some ((9, 4), (bs "abcdefghijklmnop", 0))
  | _ => False
  end.
Proof. vm_compute. repeat split. Qed.
(** 904 *)
Example test_skip_n_empty_buffer :
  ok_view (skip_n (filled (bs "") 16) 5 0) = Some ((0, 0), ([], 0)).
Proof. vm_compute. reflexivity. Qed.
(** 921 *)
Example test_skip_n_eof_from_non_zero_pos :
  ok_view (skip_n (filled (bs "abcdef") 16) 10 4) = Some ((6, 2), (bs "abcdef", 0)).
Proof. vm_compute. reflexivity. Qed.
(** 939 *)
Example test_skip_n_very_small_buffer_many_bytes :
  ok_view (skip_n (fresh_buffer (bs "abcdefghijklmnopqrstuvwxyz0123456789") 3) 30 0) = Some ((3, 30), (bs "123", 27)).
Proof. vm_compute. reflexivity. Qed.
(** 279 *)
Example test_shift_position_newlines :
  let b := filled (bs "abc" ++ [10%N] ++ bs "def" ++ [10%N] ++ bs "ghi" ++ [10%N] ++ bs "jkl") 32 in
  (pos_line b, pos_col b) = (0, 0) /\
  let b := shift_buffer b 0 4 in (pos_line b, pos_col b) = (1, 0) /\
  let b := shift_buffer b 0 (10 - 4) in (pos_line b, pos_col b) = (2, 2).
Proof. vm_compute. repeat split. Qed.
(** 299 *)
Example test_shift_position_no_newlines :
  let b := shift_buffer (filled (bs "abcdefghijkl") 32) 0 3 in
  (pos_line b, pos_col b) = (0, 3) /\
  let b := shift_buffer b 0 (8 - 3) in (pos_line b, pos_col b) = (0, 8).
Proof. vm_compute. repeat split. Qed.
(** 316 *)
Example test_shift_position_multiple_reads :
  let b := shift_buffer (filled (bs "abc" ++ [10%N] ++ bs "def" ++ [10%N] ++ bs "ghi" ++ [10%N] ++ bs "jkl") 8) 0 88 in
  let b := shift_buffer (fst (read_more b)) 0 (15 - 8) in
  (pos_line b, pos_col b) = (3, 3).
Proof. vm_compute. reflexivity. Qed.
