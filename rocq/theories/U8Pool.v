(** Model of the crate [u8pool]: u8pool/src/core.rs, slice_descriptor.rs, iter.rs, error.rs.
    No proofs here. *)
From Verif Require Import Base.

(** u8pool/src/error.rs. The [reason] strings of [InvalidInitialization] are kept as a tag. *)
Inductive init_reason := RZeroMax | REmptyBuffer | RTooSmall | RNoPositions.
Inductive perror :=
| BufferOverflow (requested available : nat)
| IndexOutOfBounds (index length : nat)
| InvalidInitialization (reason : init_reason)
| SliceLimitExceeded (max_slices : N)
| ValueTooLarge (value max : N).

(** core.rs:10-15. [descriptor] is the byte buffer inside [SliceDescriptor]
    (slice_descriptor.rs:8-10). [max_slices] is in [N] because [new] accepts any [usize]. *)
Record pool := mkPool {
  max_slices : N;
  count : nat;
  descriptor : bytes;
  data : bytes }.

Definition set_count (p : pool) (c : nat) : pool :=
  mkPool (max_slices p) c (descriptor p) (data p).
Definition set_data (p : pool) (d : bytes) : pool :=
  mkPool (max_slices p) (count p) (descriptor p) d.
Definition set_descriptor (p : pool) (d : bytes) : pool :=
  mkPool (max_slices p) (count p) d (data p).

(** core.rs:5 and slice_descriptor.rs:3. *)
Definition SLICE_DESCRIPTOR_SIZE : nat := 4.
(** core.rs:6. *)
Definition DEFAULT_MAX_SLICES : N := 32.

(** 64-bit [usize] arithmetic: with overflow checks (debug profile) an overflow panics,
    without them (release profile) it wraps. *)
Definition usize_modulus : N := 18446744073709551616.
Definition usize_op (overflow_checks : bool) (v : N) : outcome N :=
  if (v <? usize_modulus)%N then Done v
  else if overflow_checks then Panic else Done (v mod usize_modulus)%N.

(** core.rs:26-57 [U8Pool::new]. *)
Definition pool_new (overflow_checks : bool) (buffer : bytes) (max : N)
  : outcome (result pool perror) :=
  if (max =? 0)%N then Done (Err (InvalidInitialization RZeroMax))
  else if (len buffer =? 0) then Done (Err (InvalidInitialization REmptyBuffer))
  else
    do metadata_space <- usize_op overflow_checks (max * 4)%N;
    do min_required <- usize_op overflow_checks (metadata_space + 1)%N;
    if (N.of_nat (len buffer) <? min_required)%N
    then Done (Err (InvalidInitialization RTooSmall))
    else (* split_at_mut *)
      if (N.of_nat (len buffer) <? metadata_space)%N then Panic else
      let m := N.to_nat metadata_space in
      Done (Ok (mkPool max 0 (firstn m buffer) (skipn m buffer))).

(** core.rs:64-66 [with_default_max_slices]. *)
Definition pool_with_default (overflow_checks : bool) (buffer : bytes) :=
  pool_new overflow_checks buffer DEFAULT_MAX_SLICES.

(** core.rs:70-72 [len], 76-78 [is_empty], 83-85 [clear]. *)
Definition pool_len (p : pool) : nat := count p.
Definition pool_is_empty (p : pool) : bool := count p =? 0.
Definition pool_clear (p : pool) : pool := set_count p 0.

(** slice_descriptor.rs:35-45 [get]. [u16::from(lo) | u16::from(hi) << 8] is
    [lo + 256 * hi] for bytes. *)
Definition desc_get (d : bytes) (index : nat) : option (nat * nat) :=
  let offset := index * SLICE_DESCRIPTOR_SIZE in
  if List.length d <? offset + SLICE_DESCRIPTOR_SIZE then None
  else
    let b k := nth (offset + k) d 0%N in
    Some (N.to_nat (b 0 + 256 * b 1), N.to_nat (b 2 + 256 * b 3)).

Definition u16_max : N := 65535.

(** slice_descriptor.rs:48-79 [set]. *)
Definition desc_set (d : bytes) (index start length : nat) : result bytes perror :=
  if (u16_max <? N.of_nat start)%N then Err (ValueTooLarge (N.of_nat start) u16_max)
  else if (u16_max <? N.of_nat length)%N then Err (ValueTooLarge (N.of_nat length) u16_max)
  else
    let offset := index * SLICE_DESCRIPTOR_SIZE in
    if List.length d <? offset + SLICE_DESCRIPTOR_SIZE
    then Err (IndexOutOfBounds index (List.length d / SLICE_DESCRIPTOR_SIZE))
    else
      let s := N.of_nat start in
      let l := N.of_nat length in
      Ok (write_at d offset [(s mod 256)%N; (s / 256)%N; (l mod 256)%N; (l / 256)%N]).

(** core.rs:91-101 [data_used]. *)
Definition data_used (p : pool) : nat :=
  if count p =? 0 then 0
  else match desc_get (descriptor p) (count p - 1) with
       | Some (last_start, last_length) => last_start + last_length
       | None => len (data p)
       end.

(** A Rust type as far as the pool cares: [size_of::<T>()] and [align_of::<T>()]. *)
Record ty := mkTy { t_size : nat; t_align : nat }.
(** The unit type used by the plain [push] (core.rs:181). *)
Definition unit_ty : ty := mkTy 0 1.

(** [usize::next_multiple_of] (core.rs:138). *)
Definition next_multiple_of (x a : nat) : nat :=
  match x mod a with
  | 0 => x
  | r => x + (a - r)
  end.

(** core.rs:126-153 [reserve_aligned_buffer_space]. *)
Definition reserve (p : pool) (t : ty) (data_size : nat) : result (nat * nat) perror :=
  if (max_slices p <=? N.of_nat (count p))%N then Err (SliceLimitExceeded (max_slices p))
  else
    let current_pos := data_used p in
    let aligned_start := next_multiple_of current_pos (t_align t) in
    let total_size := (aligned_start - current_pos) + t_size t + data_size in
    let end_ := aligned_start + t_size t + data_size in
    let available := len (data p) - current_pos in
    if available <? total_size then Err (BufferOverflow total_size available)
    else Ok (aligned_start, end_).

(** core.rs:162-166 [finalize_push]. *)
Definition finalize_push (p : pool) (start total_size : nat) : result pool perror :=
  match desc_set (descriptor p) (count p) start total_size with
  | Ok d => Ok (set_count (set_descriptor p d) (count p + 1))
  | Err e => Err e
  end.

(** core.rs:265-303 [push_assoc]. The value of type [T] is its byte representation [assoc]
    ([len assoc = size_of::<T>()] is a typing fact, assumed by the theorems). [ptr::write] is a
    write of these bytes. The first component is the pool after the call, also on error. *)
Definition push_assoc (p : pool) (t : ty) (assoc d : bytes)
  : outcome (pool * result (bytes * bytes) perror) :=
  match reserve p t (len d) with
  | Err e => Done (p, Err e)
  | Ok (aligned_start, end_) =>
      let assoc_end := aligned_start + t_size t in
      match slice (data p) aligned_start assoc_end with
      | None => Panic
      | Some _ =>
          let p1 := set_data p (write_at (data p) aligned_start assoc) in
          match slice (data p1) assoc_end end_ with
          | None => Panic
          | Some _ =>
              let p2 := set_data p1 (write_at (data p1) assoc_end d) in
              match finalize_push p2 aligned_start (end_ - aligned_start) with
              | Err e => Done (p2, Err e)
              | Ok p3 =>
                  match slice (data p3) aligned_start assoc_end, slice (data p3) assoc_end end_ with
                  | Some a, Some b => Done (p3, Ok (a, b))
                  | _, _ => Panic
                  end
              end
          end
      end
  end.

(** core.rs:180-193 [push]. *)
Definition push (p : pool) (d : bytes) : outcome (pool * result bytes perror) :=
  match reserve p unit_ty (len d) with
  | Err e => Done (p, Err e)
  | Ok (aligned_start, end_) =>
      match slice (data p) aligned_start end_ with
      | None => Panic
      | Some _ =>
          let p1 := set_data p (write_at (data p) aligned_start d) in
          match finalize_push p1 aligned_start (end_ - aligned_start) with
          | Err e => Done (p1, Err e)
          | Ok p2 =>
              match slice (data p2) aligned_start end_ with
              | Some b => Done (p2, Ok b)
              | None => Panic
              end
          end
      end
  end.

(** core.rs:198-209 [pop]. *)
Definition pop (p : pool) : outcome (pool * option bytes) :=
  if count p =? 0 then Done (p, None)
  else
    let p1 := set_count p (count p - 1) in
    match desc_get (descriptor p1) (count p1) with
    | None => Done (p1, None)
    | Some (start, length) =>
        match slice (data p1) start (start + length) with
        | Some b => Done (p1, Some b)
        | None => Panic
        end
    end.

(** core.rs:216-224 [get]. *)
Definition get (p : pool) (index : nat) : outcome (option bytes) :=
  if count p <=? index then Done None
  else match desc_get (descriptor p) index with
       | None => Done None
       | Some (start, length) =>
           match slice (data p) start (start + length) with
           | Some b => Done (Some b)
           | None => Panic
           end
       end.

(** core.rs:230-235 [top]. *)
Definition top (p : pool) : outcome (option bytes) :=
  if count p =? 0 then Done None else get p (count p - 1).

(** core.rs:333-352 [get_validated_assoc_positions]. *)
Definition assoc_positions (p : pool) (t : ty) (index : nat) : option (nat * nat * nat) :=
  if count p <=? index then None
  else match desc_get (descriptor p) index with
       | None => None
       | Some (aligned_start, total_length) =>
           if total_length <? t_size t then None
           else Some (aligned_start, aligned_start + t_size t, aligned_start + total_length)
       end.

(** core.rs:365-380 [extract_assoc_ref]: reading [T] through the pointer is reading its bytes. *)
Definition extract_assoc (p : pool) (start assoc_end data_end : nat)
  : outcome (bytes * bytes) :=
  match slice (data p) start assoc_end, slice (data p) assoc_end data_end with
  | Some a, Some b => Done (a, b)
  | _, _ => Panic
  end.

(** core.rs:392-400 [get_assoc]. *)
Definition get_assoc (p : pool) (t : ty) (index : nat) : outcome (option (bytes * bytes)) :=
  match assoc_positions p t index with
  | None => Done None
  | Some (start, assoc_end, data_end) =>
      do r <- extract_assoc p start assoc_end data_end; Done (Some r)
  end.

(** core.rs:411-426 [pop_assoc]. *)
Definition pop_assoc (p : pool) (t : ty) : outcome (pool * option (bytes * bytes)) :=
  if count p =? 0 then Done (p, None)
  else match assoc_positions p t (count p - 1) with
       | None => Done (p, None)
       | Some (start, assoc_end, data_end) =>
           let p1 := set_count p (count p - 1) in
           do r <- extract_assoc p1 start assoc_end data_end; Done (p1, Some r)
       end.

(** core.rs:438-443 [top_assoc]. *)
Definition top_assoc (p : pool) (t : ty) : outcome (option (bytes * bytes)) :=
  if count p =? 0 then Done None else get_assoc p t (count p - 1).

(** core.rs:455-471 [top_assoc_obj]. *)
Definition top_assoc_obj (p : pool) (t : ty) : outcome (option bytes) :=
  if count p =? 0 then Done None
  else match assoc_positions p t (count p - 1) with
       | None => Done None
       | Some (start, assoc_end, _) =>
           match slice (data p) start assoc_end with
           | Some a => Done (Some a)
           | None => Panic
           end
       end.

(** core.rs:482-493 [top_assoc_bytes]. *)
Definition top_assoc_bytes (p : pool) (t : ty) : outcome (option bytes) :=
  if count p =? 0 then Done None
  else match assoc_positions p t (count p - 1) with
       | None => Done None
       | Some (_, assoc_end, data_end) =>
           match slice (data p) assoc_end data_end with
           | Some b => Done (Some b)
           | None => Panic
           end
       end.

(** core.rs:514-555 [replace_top_assoc_bytes]. The first component is the pool after the
    call, also on error. *)
Definition replace_top_assoc_bytes (p : pool) (t : ty) (new_data : bytes)
  : outcome (pool * result bytes perror) :=
  if count p =? 0 then Done (p, Err (IndexOutOfBounds 0 0))
  else match assoc_positions p t (count p - 1) with
       | None => Done (p, Err (InvalidInitialization RNoPositions))
       | Some (start, assoc_end, _) =>
           let new_end := assoc_end + len new_data in
           if len (data p) <? new_end
           then Done (p, Err (BufferOverflow (len new_data) (len (data p) - assoc_end)))
           else
             match slice (data p) assoc_end new_end with
             | None => Panic
             | Some _ =>
                 let p1 := set_data p (write_at (data p) assoc_end new_data) in
                 match desc_set (descriptor p1) (count p - 1) start
                                ((assoc_end - start) + len new_data) with
                 | Err e => Done (p1, Err e)
                 | Ok d =>
                     let p2 := set_descriptor p1 d in
                     match slice (data p2) assoc_end new_end with
                     | Some b => Done (p2, Ok b)
                     | None => Panic
                     end
                 end
             end
       end.

(** ** Iterators *)

(** slice_descriptor.rs:99-124 [SliceDescriptorIter]: state ([current], [count]). *)
Record fwd_iter := mkFwd { f_current : nat; f_count : nat }.
Definition desc_iter_next (d : bytes) (it : fwd_iter) : option (nat * nat) * fwd_iter :=
  if f_current it <? f_count it
  then (desc_get d (f_current it), mkFwd (f_current it + 1) (f_count it))
  else (None, it).
Definition fwd_size (it : fwd_iter) : nat := f_count it - f_current it.

(** slice_descriptor.rs:128-150 [SliceDescriptorRevIter]: state [current]. *)
Definition desc_rev_next (d : bytes) (current : nat) : option (nat * nat) * nat :=
  match current with
  | 0 => (None, 0)
  | S c => (desc_get d c, c)
  end.

(** iter.rs:8-26 [U8PoolIter] over the pool it was created from. [data.get(range)] is [slice]. *)
Definition iter_start (p : pool) : fwd_iter := mkFwd 0 (count p).
Definition iter_next (p : pool) (it : fwd_iter) : option bytes * fwd_iter :=
  match desc_iter_next (descriptor p) it with
  | (None, it') => (None, it')
  | (Some (start, length), it') => (slice (data p) start (start + length), it')
  end.

(** iter.rs:44-71 [U8PoolRevIter]. Its [size_hint] is the state itself. *)
Definition rev_start (p : pool) : nat := count p.
Definition rev_next (p : pool) (current : nat) : option bytes * nat :=
  match desc_rev_next (descriptor p) current with
  | (None, c) => (None, c)
  | (Some (start, length), c) => (slice (data p) start (start + length), c)
  end.

(** iter.rs:78-108 [U8PoolPairIter]. *)
Definition pair_next (p : pool) (it : fwd_iter) : option (bytes * bytes) * fwd_iter :=
  match iter_next p it with
  | (None, it1) => (None, it1)
  | (Some key, it1) =>
      match iter_next p it1 with
      | (None, it2) => (None, it2)
      | (Some value, it2) => (Some (key, value), it2)
      end
  end.
Definition pair_size (it : fwd_iter) : nat := fwd_size it / 2.

(** iter.rs:114-148 [U8PoolAssocIter]: state [current_index]; [next] always advances. *)
Definition assoc_next (p : pool) (t : ty) (i : nat)
  : outcome (option (bytes * bytes)) * nat := (get_assoc p t i, i + 1).
Definition assoc_size (p : pool) (i : nat) : nat := pool_len p - i.

(** iter.rs:154-191 [U8PoolAssocRevIter]. *)
Definition assoc_rev_start (p : pool) : nat := pool_len p.
Definition assoc_rev_next (p : pool) (t : ty) (i : nat)
  : outcome (option (bytes * bytes)) * nat :=
  match i with
  | 0 => (Done None, 0)
  | S j => (get_assoc p t j, j)
  end.
Definition assoc_rev_size (i : nat) : nat := i.
