(** Machines of either byte order.  The other files take what [to_be] leaves in memory
    and what [from_be] makes of it as given, the little-endian layout on a
    little-endian machine and the portable one on a big-endian machine with [data_]
    before [cap_].  Here values are words, memory holds words in the order of the
    machine, and both layouts run on any machine. *)
From Verif Require Import Base ModelTag ModelContents ModelBuf ModelHeap ModelBufLE ModelBufUE.

Inductive order := Big | Little.
(** The [k] octets of the word [n] in memory, and the word that [l] in memory is. *)
Definition mem_of (o : order) (k : nat) (n : N) : list N := match o with Big => be_tail k n | Little => le_octets k n end.
Definition word_of (o : order) (l : list N) : N :=
  match o with Big => fold_left (fun a b => a * 256 + b) l 0 | Little => le_value l end.
(** std: [swap_bytes]; [to_be] and [from_be] are both it, or nothing. *)
Definition swap_bytes (k : nat) (n : N) : N := word_of Big (mem_of Little k n).
Definition be_swap (o : order) (k : nat) (n : N) : N := match o with Big => n | Little => swap_bytes k n end.
(** Values of a primitive integer type and the words that represent them. *)
Definition int_word (t : int_ty) (v : Z) : N := Z.to_N (v mod int_mod t).
Definition word_int (t : int_ty) (u : N) : Z :=
  if int_signed t && (int_mod t / 2 <=? Z.of_N u)%Z then (Z.of_N u - int_mod t)%Z else Z.of_N u.
Definition int_to_be (o : order) (t : int_ty) (v : Z) : Z := word_int t (be_swap o (int_size t) (int_word t v)).
Definition int_from_be (o : order) (t : int_ty) (v : Z) : Z := word_int t (be_swap o (int_size t) (int_word t v)).
Definition int_mem (o : order) (t : int_ty) (v : Z) : list N := mem_of o (int_size t) (int_word t v).
Definition int_of_mem (o : order) (t : int_ty) (mem : list N) : Z := word_int t (word_of o mem).

(** ** Lengths and integers *)
(** bsn1/src/length.rs:94-128: [byte_len] octets at the end of the memory of
    [val.to_be()], a usize of 8 octets. *)
Definition on_Length_to_bytes (o : order) (l : Length) : list N :=
  match l with
  | Indefinite => [LEN_INDEFINITE]
  | Definite val =>
      if val <=? LEN_MAX_SHORT then [as_u8 val]
      else
        let be := mem_of o 8 (be_swap o 8 val) in
        as_u8 (LEN_LONG_FLAG + byte_len val) :: take (byte_len val) (drop (8 - byte_len val) be)
  end.
(** bsn1/src/contents.rs:54-86: the array of zero and [val.to_be()] *)
Definition on_from_positive (o : order) (t : int_ty) (v : Z) : res (list N) :=
  let size := N.of_nat (int_size t) in
  let vals := int_mem o t 0 ++ int_mem o t (int_to_be o t v) in
  match count_leading 0 (drop size vals) with
  | None => Panic
  | Some k =>
      let src := size + k in
      let len := size - k in
      match nth_byte vals src with
      | None => Panic
      | Some b =>
          if N.land b 0x80 =? 0x80 then Ok (take (len + 1) (drop (src - 1) vals))
          else Ok (take len (drop src vals))
      end
  end.
(** bsn1/src/contents.rs:88-122 *)
Definition on_from_negative (o : order) (t : int_ty) (v : Z) : res (list N) :=
  let size := N.of_nat (int_size t) in
  let val := int_mem o t (int_to_be o t v) in
  let src := skip_ff val in
  let len := size - src in
  match nth_byte val src with
  | None => Panic
  | Some b =>
      if N.land b 0x80 =? 0 then
        if src =? 0 then Panic else Ok (take (len + 1) (drop (src - 1) val))
      else Ok (take len (drop src val))
  end.
(** bsn1/src/contents.rs:35-46 and the From impls 176-271 *)
Definition on_Contents_from_int (o : order) (t : int_ty) (v : Z) : res (list N) :=
  if int_signed t then
    if (v <? 0)%Z then on_from_negative o t v
    else if (v =? 0)%Z then Ok Contents_from_zero
    else on_from_positive o t v
  else
    if (v =? 0)%Z then Ok Contents_from_zero else on_from_positive o t v.
(** bsn1/src/contents_ref.rs:144-166: the octets go to the end of the memory of a T,
    the value there is given to [from_be]. *)
Definition on_to_integer_unchecked (o : order) (t : int_ty) (bs : list N) : res Z :=
  match bs with
  | [] => Panic
  | b0 :: _ =>
      let bytes := drop_leading_zero bs in
      let size := N.of_nat (int_size t) in
      let filler := if N.land b0 0x80 =? 0 then 0x00 else 0xff in
      if size <? nlen bytes then Panic
      else Ok (int_from_be o t (int_of_mem o t (repeat filler (N.to_nat (size - nlen bytes)) ++ bytes)))
  end.
(** bsn1/src/contents_ref.rs:91-132, to_integer *)
Definition on_to_integer (o : order) (t : int_ty) (bs : list N) : res Z :=
  match bs with
  | [] => Err UnterminatedBytes
  | b0 :: rest =>
      let redundant :=
        match rest with
        | [] => false
        | b1 :: _ =>
            ((b0 =? 0) && (N.land b1 0x80 =? 0)) || ((b0 =? 0xff) && (N.land b1 0x80 =? 0x80))
        end in
      if redundant then Err RedundantBytes
      else
        let bytes := drop_leading_zero bs in
        if N.of_nat (int_size t) <? nlen bytes then Err OverFlow
        else
          let! v := on_to_integer_unchecked o t bs in
          if N.land b0 0x80 =? 0 then
            if (v <? 0)%Z then Err OverFlow else Ok v
          else
            if (0 <=? v)%Z then Err OverFlow else Ok v
  end.

(** ** The layouts *)
Section MACHINE.
Context (o : order).
(** bsn1/src/buffer/little_endian/mod.rs as in ModelBufLE.v, the words of the struct in the
    order of the machine. *)
(** little_endian/mod.rs:27-32: repr(C) { data_, cap_, len_ }, 24 octets of memory. *)
Definition mle_word (i : N) (r : le_raw) : N := word_of o (take 8 (drop (8 * i) r)).
Definition mle_set_word (i v : N) (r : le_raw) : le_raw := take (8 * i) r ++ mem_of o 8 v ++ drop (8 * i + 8) r.
Definition mle_data := mle_word 0.
Definition mle_cap_ := mle_word 1.
Definition mle_len_ := mle_word 2.

(** 183-185 *)
Definition mle_is_stack (r : le_raw) : bool := N.land (mle_len_ r) HEAP_FLAG =? 0.
(** 59-65: null pointer and zeros *)
Definition mle_new : le_raw := repeat 0 24.
(** 109-115 *)
Definition mle_len (r : le_raw) : N :=
  if mle_is_stack r then N.shiftr (mle_len_ r) (64 - 8) else N.land (mle_len_ r) LEN_MASK.
(** 117-123 *)
Definition mle_capacity (r : le_raw) : N := if mle_is_stack r then LE_INIT_CAPACITY else mle_cap_ r.
(** 159-167.  Bits shifted out of the word are lost. *)
Definition mle_set_len (len : N) (r : le_raw) : M le_raw :=
  if mle_is_stack r then
    let MASK := N.shiftl 0xff (64 - 8) in
    let r1 := mle_set_word 2 (N.land (mle_len_ r) (N.lxor MASK (usize_limit - 1))) r in
    mret (mle_set_word 2 (N.lor (mle_len_ r1) (N.shiftl len (64 - 8) mod usize_limit)) r1)
  else mret (mle_set_word 2 (N.lor len HEAP_FLAG) r).

(** Reading and writing through as_ptr/as_mut_ptr (169-181): the struct itself (24
    octets), or the block. *)
Definition mle_load (off n : N) (r : le_raw) : M (list N) :=
  if mle_is_stack r then (if nlen r <? off + n then mub else mret (take n (drop off r)))
  else load (mle_data r) off n.
Definition mle_store (off : N) (src : list N) (r : le_raw) : M le_raw :=
  if mle_is_stack r then
    (if nlen r <? off + nlen src then mub else mret (take off r ++ src ++ drop (off + nlen src) r))
  else _ <-- store (mle_data r) off src ; mret r.

(** 125-157 *)
Definition mle_reserve (al : allocator) (additional : N) (r : le_raw) : M le_raw :=
  let new_cap := mle_len r + additional in
  if usize_limit <=? new_cap then mcrash
  else if new_cap <=? mle_capacity r then mret r
  else if mle_is_stack r then
    ptr <-- alloc al new_cap ;
    bs <-- mle_load 0 (mle_len r) r ;
    _ <-- store ptr 0 bs ;
    let r1 := mle_set_word 0 ptr r in
    let r2 := mle_set_word 1 new_cap r1 in
    mret (mle_set_word 2 (N.lor (mle_len r2) HEAP_FLAG) r2)
  else
    ptr <-- realloc al (mle_data r) (mle_capacity r) new_cap ;
    mret (mle_set_word 1 new_cap (mle_set_word 0 ptr r)).
(** 67-71 *)
Definition mle_with_capacity (al : allocator) (cap : N) : M le_raw := mle_reserve al cap mle_new.
(** 73-87 *)
Definition mle_from_vec (v : vec) : M le_raw :=
  if v_cap v =? 0 then (_ <-- vec_drop v ; mret mle_new)
  else mret (mem_of o 8 (v_ptr v) ++ mem_of o 8 (v_cap v) ++ mem_of o 8 (N.lor (v_len v) HEAP_FLAG)).
(** 92-98; the index is checked against as_mut_slice's length. *)
Definition mle_push (v : N) (r : le_raw) : M le_raw :=
  let old_len := mle_len r in
  if old_len <? mle_capacity r then
    r1 <-- mle_set_len (old_len + 1) r ;
    if old_len <? mle_len r1 then mle_store old_len [v] r1 else mcrash
  else mcrash.
(** 103-107 *)
Definition mle_extend (vals : list N) (r : le_raw) : M le_raw :=
  r1 <-- mle_store (mle_len r) vals r ;
  mle_set_len (mle_len r1 + nlen vals) r1.
(** 37-48 *)
Definition mle_drop (r : le_raw) : M unit :=
  if mle_is_stack r then mret tt else dealloc (mle_data r) (mle_cap_ r).
(** 50-56 *)
Definition mle_clone (al : allocator) (r : le_raw) : M le_raw :=
  ret <-- mle_with_capacity al (mle_len r) ;
  s <-- mle_load 0 (mle_len r) r ;
  mle_extend s ret.
(** 195-205: the stack variant copies and then drops [self]; the heap variant hands
    the block over. *)
Definition mle_into_vec (al : allocator) (r : le_raw) : M vec :=
  if mle_is_stack r then
    s <-- mle_load 0 (mle_len r) r ;
    v <-- vec_from_slice al s ;
    _ <-- mle_drop r ;
    mret v
  else mret {| v_ptr := mle_data r; v_len := mle_len r; v_cap := mle_cap_ r |}.

Definition LE_on : layout := {|
  L_raw := le_raw; L_init_cap := LE_INIT_CAPACITY; L_new := mle_new; L_with_capacity := mle_with_capacity;
  L_from_vec := mle_from_vec; L_len := mle_len; L_capacity := mle_capacity; L_reserve := mle_reserve;
  L_set_len := mle_set_len; L_push := mle_push; L_extend := mle_extend; L_load := mle_load; L_store := mle_store;
  L_clone := mle_clone; L_into_vec := mle_into_vec; L_drop := mle_drop |}.

(** bsn1/src/buffer/universal_endian/mod.rs as in ModelBufUE.v, the two words of the union
    in the order of the machine and in either order of the fields (the struct HeapBuffer,
    21-24, leaves it to the compiler). *)
Context (first : bool).
Definition mue_data_at (l : list N) : N := word_of o (if first then take 8 l else drop 8 l).
Definition mue_data (r : ue_raw) : N := mue_data_at (u_union r).
Definition mue_cap_ (r : ue_raw) : N := word_of o (if first then drop 8 (u_union r) else take 8 (u_union r)).
Definition mue_heap_union (data cap : N) : list N :=
  if first then mem_of o 8 data ++ mem_of o 8 cap else mem_of o 8 cap ++ mem_of o 8 data.

(** 223-229 *)
Definition mue_capacity (r : ue_raw) : N := if ue_is_stack r then UE_INIT_CAPACITY else mue_cap_ r.
(** HeapBuffer::new, 36-51 *)
Definition mue_heap_new (al : allocator) (capacity : N) : M (list N) :=
  if capacity =? 0 then mcrash
  else (data <-- alloc al capacity ; mret (mue_heap_union data capacity)).
(** 168-179 *)
Definition mue_with_capacity (al : allocator) (capacity : N) : M ue_raw :=
  if capacity <=? UE_INIT_CAPACITY then mret ue_new
  else (u <-- mue_heap_new al capacity ; mret {| u_len_ := N.lor 0 UE_HEAP_FLAG; u_union := u |}).
(** 181-197 *)
Definition mue_from_vec (v : vec) : M ue_raw :=
  if v_cap v =? 0 then (_ <-- vec_drop v ; mret ue_new)
  else mret {| u_len_ := N.lor (v_len v) UE_HEAP_FLAG; u_union := mue_heap_union (v_ptr v) (v_cap v) |}.
(** 261-265 with the debug assertion *)
Definition mue_set_len (new_len : N) (r : ue_raw) : M ue_raw :=
  if mue_capacity r <? new_len then mcrash
  else mret {| u_len_ := N.lor (N.land (u_len_ r) UE_HEAP_FLAG) new_len; u_union := u_union r |}.
(** Reading and writing through as_ptr (231-239) and as_mut_ptr (267-275). *)
Definition mue_load (off n : N) (r : ue_raw) : M (list N) :=
  if ue_is_stack r then (if nlen (u_union r) <? off + n then mub else mret (take n (drop off (u_union r))))
  else load (mue_data r) off n.
Definition mue_store (off : N) (src : list N) (r : ue_raw) : M ue_raw :=
  if ue_is_stack r then
    (if nlen (u_union r) <? off + nlen src then mub
     else mret {| u_len_ := u_len_ r; u_union := take off (u_union r) ++ src ++ drop (off + nlen src) (u_union r) |})
  else _ <-- store (mue_data r) off src ; mret r.
(** 241-259, 64-76 *)
Definition mue_reserve (al : allocator) (additional : N) (r : ue_raw) : M ue_raw :=
  let new_cap := ue_len r + additional in
  if usize_limit <=? new_cap then mcrash
  else if new_cap <=? mue_capacity r then mret r
  else if ue_is_stack r then
    u <-- mue_heap_new al new_cap ;
    bs <-- mue_load 0 (ue_len r) r ;
    _ <-- store (mue_data_at u) 0 bs ;
    mret {| u_len_ := N.lor (u_len_ r) UE_HEAP_FLAG; u_union := u |}
  else
    data <-- realloc al (mue_data r) (mue_cap_ r) new_cap ;
    mret {| u_len_ := u_len_ r; u_union := mue_heap_union data new_cap |}.
(** 202-208 *)
Definition mue_push (v : N) (r : ue_raw) : M ue_raw :=
  let old_len := ue_len r in
  if old_len <? mue_capacity r then
    r1 <-- mue_set_len (old_len + 1) r ;
    if old_len <? ue_len r1 then mue_store old_len [v] r1 else mcrash
  else mcrash.
(** 213-217 *)
Definition mue_extend (vals : list N) (r : ue_raw) : M ue_raw :=
  r1 <-- mue_store (ue_len r) vals r ;
  mue_set_len (ue_len r1 + nlen vals) r1.
(** 136-148, 26-33 *)
Definition mue_drop (r : ue_raw) : M unit :=
  if ue_is_stack r then mret tt else dealloc (mue_data r) (mue_cap_ r).
(** 150-156 *)
Definition mue_clone (al : allocator) (r : ue_raw) : M ue_raw :=
  ret <-- mue_with_capacity al (ue_len r) ;
  s <-- mue_load 0 (ue_len r) r ;
  mue_extend s ret.
(** 281-291 *)
Definition mue_into_vec (al : allocator) (r : ue_raw) : M vec :=
  if ue_is_stack r then
    s <-- mue_load 0 (ue_len r) r ;
    v <-- vec_from_slice al s ;
    _ <-- mue_drop r ;
    mret v
  else mret {| v_ptr := mue_data r; v_len := ue_len r; v_cap := mue_capacity r |}.

Definition UE_on : layout := {|
  L_raw := ue_raw; L_init_cap := UE_INIT_CAPACITY; L_new := ue_new; L_with_capacity := mue_with_capacity;
  L_from_vec := mue_from_vec; L_len := ue_len; L_capacity := mue_capacity; L_reserve := mue_reserve;
  L_set_len := mue_set_len; L_push := mue_push; L_extend := mue_extend; L_load := mue_load; L_store := mue_store;
  L_clone := mue_clone; L_into_vec := mue_into_vec; L_drop := mue_drop |}.
End MACHINE.

(** bsn1/src/buffer/mod.rs:17-25: which layout is compiled *)
Definition chosen (o : order) (first : bool) : layout := match o with Little => LE_on Little | Big => UE_on Big first end.
