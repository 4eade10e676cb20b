(** bsn1/src/buffer/universal_endian/mod.rs, octet by octet. *)
From Verif Require Import Base ModelTag ModelBuf ModelHeap.

(** 113-131: the field len_ and the union of [u8; 16] and { data_, cap_ }.  The union
    is 16 octets, the words in it are big endian (the layout is compiled for such
    targets only) with data_ first.  Rust leaves the order open; the code never reads
    one variant's octets as the other's, so it does not matter. *)
Record ue_raw := { u_len_ : N; u_union : list N }.
Definition ue_value (l : list N) : N := fold_left (fun a b => a * 256 + b) l 0.
Definition ue_data (r : ue_raw) : N := ue_value (take 8 (u_union r)).
Definition ue_cap_ (r : ue_raw) : N := ue_value (drop 8 (u_union r)).
Definition ue_heap_union (data cap : N) : list N := be_tail 8 data ++ be_tail 8 cap.
(** 124-126 *)
Definition UE_HEAP_FLAG : N := 2 ^ 63.
Definition UE_LEN_MASK : N := 2 ^ 63 - 1.
Definition UE_INIT_CAPACITY : N := 16.

(** 277-279 *)
Definition ue_is_stack (r : ue_raw) : bool := N.land (u_len_ r) UE_HEAP_FLAG =? 0.
(** 159-166, 96-100 *)
Definition ue_new : ue_raw := {| u_len_ := 0; u_union := repeat 0 16 |}.
(** 219-221 *)
Definition ue_len (r : ue_raw) : N := N.land (u_len_ r) UE_LEN_MASK.
(** 223-229 *)
Definition ue_capacity (r : ue_raw) : N := if ue_is_stack r then UE_INIT_CAPACITY else ue_cap_ r.
(** HeapBuffer::new, 36-51 *)
Definition ue_heap_new (al : allocator) (capacity : N) : M (list N) :=
  if capacity =? 0 then mcrash
  else (data <-- alloc al capacity ; mret (ue_heap_union data capacity)).
(** 168-179 *)
Definition ue_with_capacity (al : allocator) (capacity : N) : M ue_raw :=
  if capacity <=? UE_INIT_CAPACITY then mret ue_new
  else (u <-- ue_heap_new al capacity ; mret {| u_len_ := N.lor 0 UE_HEAP_FLAG; u_union := u |}).
(** 181-197 *)
Definition ue_from_vec (v : vec) : M ue_raw :=
  if v_cap v =? 0 then (_ <-- vec_drop v ; mret ue_new)
  else mret {| u_len_ := N.lor (v_len v) UE_HEAP_FLAG; u_union := ue_heap_union (v_ptr v) (v_cap v) |}.
(** 261-265 with the debug assertion *)
Definition ue_set_len (new_len : N) (r : ue_raw) : M ue_raw :=
  if ue_capacity r <? new_len then mcrash
  else mret {| u_len_ := N.lor (N.land (u_len_ r) UE_HEAP_FLAG) new_len; u_union := u_union r |}.
(** Reading and writing through as_ptr (231-239) and as_mut_ptr (267-275). *)
Definition ue_load (off n : N) (r : ue_raw) : M (list N) :=
  if ue_is_stack r then (if nlen (u_union r) <? off + n then mub else mret (take n (drop off (u_union r))))
  else load (ue_data r) off n.
Definition ue_store (off : N) (src : list N) (r : ue_raw) : M ue_raw :=
  if ue_is_stack r then
    (if nlen (u_union r) <? off + nlen src then mub
     else mret {| u_len_ := u_len_ r; u_union := take off (u_union r) ++ src ++ drop (off + nlen src) (u_union r) |})
  else _ <-- store (ue_data r) off src ; mret r.
(** 241-259, 64-76 *)
Definition ue_reserve (al : allocator) (additional : N) (r : ue_raw) : M ue_raw :=
  let new_cap := ue_len r + additional in
  if usize_limit <=? new_cap then mcrash
  else if new_cap <=? ue_capacity r then mret r
  else if ue_is_stack r then
    u <-- ue_heap_new al new_cap ;
    bs <-- ue_load 0 (ue_len r) r ;
    _ <-- store (ue_value (take 8 u)) 0 bs ;
    mret {| u_len_ := N.lor (u_len_ r) UE_HEAP_FLAG; u_union := u |}
  else
    data <-- realloc al (ue_data r) (ue_cap_ r) new_cap ;
    mret {| u_len_ := u_len_ r; u_union := ue_heap_union data new_cap |}.
(** 202-208 *)
Definition ue_push (v : N) (r : ue_raw) : M ue_raw :=
  let old_len := ue_len r in
  if old_len <? ue_capacity r then
    r1 <-- ue_set_len (old_len + 1) r ;
    if old_len <? ue_len r1 then ue_store old_len [v] r1 else mcrash
  else mcrash.
(** 213-217 *)
Definition ue_extend (vals : list N) (r : ue_raw) : M ue_raw :=
  r1 <-- ue_store (ue_len r) vals r ;
  ue_set_len (ue_len r1 + nlen vals) r1.
(** 136-148, 26-33 *)
Definition ue_drop (r : ue_raw) : M unit :=
  if ue_is_stack r then mret tt else dealloc (ue_data r) (ue_cap_ r).
(** 150-156 *)
Definition ue_clone (al : allocator) (r : ue_raw) : M ue_raw :=
  ret <-- ue_with_capacity al (ue_len r) ;
  s <-- ue_load 0 (ue_len r) r ;
  ue_extend s ret.
(** 281-291 *)
Definition ue_into_vec (al : allocator) (r : ue_raw) : M vec :=
  if ue_is_stack r then
    s <-- ue_load 0 (ue_len r) r ;
    v <-- vec_from_slice al s ;
    _ <-- ue_drop r ;
    mret v
  else mret {| v_ptr := ue_data r; v_len := ue_len r; v_cap := ue_capacity r |}.

Definition UE : layout := {|
  L_raw := ue_raw; L_init_cap := UE_INIT_CAPACITY; L_new := ue_new; L_with_capacity := ue_with_capacity;
  L_from_vec := ue_from_vec; L_len := ue_len; L_capacity := ue_capacity; L_reserve := ue_reserve;
  L_set_len := ue_set_len; L_push := ue_push; L_extend := ue_extend; L_load := ue_load; L_store := ue_store;
  L_clone := ue_clone; L_into_vec := ue_into_vec; L_drop := ue_drop |}.
