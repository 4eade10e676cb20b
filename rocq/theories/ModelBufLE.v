(** bsn1/src/buffer/little_endian/mod.rs, octet by octet. *)
From Verif Require Import Base ModelBuf ModelHeap.

(** A 64-bit word in little-endian memory. *)
Fixpoint le_octets (k : nat) (n : N) : list N :=
  match k with O => [] | S k' => n mod 256 :: le_octets k' (n / 256) end.
Fixpoint le_value (l : list N) : N := match l with [] => 0 | b :: l' => b + 256 * le_value l' end.

(** little_endian/mod.rs:27-32: repr(C) { data_, cap_, len_ }, 24 octets of memory. *)
Definition le_raw := list N.
Definition le_word (i : N) (r : le_raw) : N := le_value (take 8 (drop (8 * i) r)).
Definition le_set_word (i v : N) (r : le_raw) : le_raw := take (8 * i) r ++ le_octets 8 v ++ drop (8 * i + 8) r.
Definition le_data := le_word 0.
Definition le_cap_ := le_word 1.
Definition le_len_ := le_word 2.
(** little_endian/mod.rs:21-25 *)
Definition HEAP_FLAG : N := 2 ^ 63.
Definition LEN_MASK : N := 2 ^ 63 - 1.
Definition LE_INIT_CAPACITY : N := 24 - 1.

(** 183-185 *)
Definition le_is_stack (r : le_raw) : bool := N.land (le_len_ r) HEAP_FLAG =? 0.
(** 59-65: null pointer and zeros *)
Definition le_new : le_raw := repeat 0 24.
(** 109-115 *)
Definition le_len (r : le_raw) : N :=
  if le_is_stack r then N.shiftr (le_len_ r) (64 - 8) else N.land (le_len_ r) LEN_MASK.
(** 117-123 *)
Definition le_capacity (r : le_raw) : N := if le_is_stack r then LE_INIT_CAPACITY else le_cap_ r.
(** 159-167.  Bits shifted out of the word are lost. *)
Definition le_set_len (len : N) (r : le_raw) : M le_raw :=
  if le_is_stack r then
    let MASK := N.shiftl 0xff (64 - 8) in
    let r1 := le_set_word 2 (N.land (le_len_ r) (N.lxor MASK (usize_limit - 1))) r in
    mret (le_set_word 2 (N.lor (le_len_ r1) (N.shiftl len (64 - 8) mod usize_limit)) r1)
  else mret (le_set_word 2 (N.lor len HEAP_FLAG) r).

(** Reading and writing through as_ptr/as_mut_ptr (169-181): the struct itself (24
    octets), or the block. *)
Definition le_load (off n : N) (r : le_raw) : M (list N) :=
  if le_is_stack r then (if nlen r <? off + n then mub else mret (take n (drop off r)))
  else load (le_data r) off n.
Definition le_store (off : N) (src : list N) (r : le_raw) : M le_raw :=
  if le_is_stack r then
    (if nlen r <? off + nlen src then mub else mret (take off r ++ src ++ drop (off + nlen src) r))
  else _ <-- store (le_data r) off src ; mret r.

(** 125-157 *)
Definition le_reserve (al : allocator) (additional : N) (r : le_raw) : M le_raw :=
  let new_cap := le_len r + additional in
  if usize_limit <=? new_cap then mcrash
  else if new_cap <=? le_capacity r then mret r
  else if le_is_stack r then
    ptr <-- alloc al new_cap ;
    bs <-- le_load 0 (le_len r) r ;
    _ <-- store ptr 0 bs ;
    let r1 := le_set_word 0 ptr r in
    let r2 := le_set_word 1 new_cap r1 in
    mret (le_set_word 2 (N.lor (le_len r2) HEAP_FLAG) r2)
  else
    ptr <-- realloc al (le_data r) (le_capacity r) new_cap ;
    mret (le_set_word 1 new_cap (le_set_word 0 ptr r)).
(** 67-71 *)
Definition le_with_capacity (al : allocator) (cap : N) : M le_raw := le_reserve al cap le_new.
(** 73-87 *)
Definition le_from_vec (v : vec) : M le_raw :=
  if v_cap v =? 0 then (_ <-- vec_drop v ; mret le_new)
  else mret (le_octets 8 (v_ptr v) ++ le_octets 8 (v_cap v) ++ le_octets 8 (N.lor (v_len v) HEAP_FLAG)).
(** 92-98; the index is checked against as_mut_slice's length. *)
Definition le_push (v : N) (r : le_raw) : M le_raw :=
  let old_len := le_len r in
  if old_len <? le_capacity r then
    r1 <-- le_set_len (old_len + 1) r ;
    if old_len <? le_len r1 then le_store old_len [v] r1 else mcrash
  else mcrash.
(** 103-107 *)
Definition le_extend (vals : list N) (r : le_raw) : M le_raw :=
  r1 <-- le_store (le_len r) vals r ;
  le_set_len (le_len r1 + nlen vals) r1.
(** 37-48 *)
Definition le_drop (r : le_raw) : M unit :=
  if le_is_stack r then mret tt else dealloc (le_data r) (le_cap_ r).
(** 50-56 *)
Definition le_clone (al : allocator) (r : le_raw) : M le_raw :=
  ret <-- le_with_capacity al (le_len r) ;
  s <-- le_load 0 (le_len r) r ;
  le_extend s ret.
(** 195-205: the stack variant copies and then drops [self]; the heap variant hands
    the block over. *)
Definition le_into_vec (al : allocator) (r : le_raw) : M vec :=
  if le_is_stack r then
    s <-- le_load 0 (le_len r) r ;
    v <-- vec_from_slice al s ;
    _ <-- le_drop r ;
    mret v
  else mret {| v_ptr := le_data r; v_len := le_len r; v_cap := le_cap_ r |}.

Definition LE : layout := {|
  L_raw := le_raw; L_init_cap := LE_INIT_CAPACITY; L_new := le_new; L_with_capacity := le_with_capacity;
  L_from_vec := le_from_vec; L_len := le_len; L_capacity := le_capacity; L_reserve := le_reserve;
  L_set_len := le_set_len; L_push := le_push; L_extend := le_extend; L_load := le_load; L_store := le_store;
  L_clone := le_clone; L_into_vec := le_into_vec; L_drop := le_drop |}.
