(** The code that depends on the width of usize, for words of [w] octets: Length, the allocator
    and the two buffer layouts.  With [w = 8] these are the definitions of ModelTag.v, ModelHeap.v,
    ModelBufLE.v and ModelBufUE.v (WordProofs.v: [eight_*]). *)
From Verif Require Import Base ModelIo ModelTag ModelBuf ModelHeap ModelBufLE ModelBufUE SpecBuf.

Section WORD.
(** size_of::<usize>() *)
Context (w : N).
(** usize::MAX + 1 and isize::MAX *)
Definition word_limit : N := 2 ^ (8 * w).
Definition word_max : N := 2 ^ (8 * w - 1) - 1.

(** ** length.rs *)
(** [val.leading_zeros()] *)
Definition w_leading_zeros (val : N) : N := 8 * w - N.size val.
(** 105-108, 155-157: BITS_PER_BYTE * size_of::<usize>() - leading_zeros *)
Definition w_byte_len (val : N) : N := (8 * w - w_leading_zeros val + 7) / 8.
(** 147-164 *)
Definition w_Length_len (l : Length) : N :=
  match l with
  | Indefinite => 1
  | Definite val => if val <=? LEN_MAX_SHORT then 1 else w_byte_len val + 1
  end.
(** length_buffer.rs:28 *)
Definition w_LB_CAPACITY : N := w_Length_len (Definite (word_limit - 1)).
(** 94-128.  [be_tail w val] is the memory of val.to_be(); set_len has a debug assertion
    (length_buffer.rs:59-63), [flag] is a sum in u8. *)
Definition w_Length_to_bytes (l : Length) : res (list N) :=
  match l with
  | Indefinite => Ok [LEN_INDEFINITE]
  | Definite val =>
      if val <=? LEN_MAX_SHORT then Ok [as_u8 val]
      else
        let k := w_byte_len val in
        if 256 <=? LEN_LONG_FLAG + as_u8 k then Panic
        else if w_LB_CAPACITY <? k + 1 then Panic
        else if w <? k then Panic
        else Ok ((LEN_LONG_FLAG + as_u8 k) :: take k (drop (w - k) (be_tail (N.to_nat w) val)))
  end.
(** 287-291.  [<<] drops the bits above the word. *)
Fixpoint w_parse_length_loop {S} (R : reader S) (k : nat) (len : N) : parser S Length :=
  match k with
  | O => pret (Definite len)
  | Datatypes.S k' =>
      byte <- read_u8 R ;;
      write_u8 byte ;;;
      w_parse_length_loop R k' (N.shiftl len 8 mod word_limit + byte)
  end.
(** 252-295 *)
Definition w_parse_length {S} (R : reader S) : parser S Length :=
  first <- read_u8 R ;;
  write_u8 first ;;;
  if first =? LEN_INDEFINITE then pret Indefinite
  else if negb (N.land first LEN_LONG_FLAG =? LEN_LONG_FLAG) then pret (Definite first)
  else
    second <- read_u8 R ;;
    if second =? 0 then pfail RedundantBytes
    else
      write_u8 second ;;;
      let followings_count := N.lxor first LEN_LONG_FLAG in
      if (followings_count =? 1) && (second <=? LEN_MAX_SHORT) then pfail RedundantBytes
      else if w <? followings_count then pfail OverFlow
      else w_parse_length_loop R (N.to_nat (followings_count - 1)) second.
(** 305-326 *)
Definition w_parse_length_unchecked (bs : list N) : res (Length * list N) :=
  match bs with
  | [] => Panic
  | first :: bs1 =>
      if first =? LEN_INDEFINITE then Ok (Indefinite, bs1)
      else if negb (N.land first LEN_LONG_FLAG =? LEN_LONG_FLAG) then Ok (Definite first, bs1)
      else
        let k := N.land first (not_u8 LEN_LONG_FLAG) in
        if nlen bs1 <? k then Panic
        else
          Ok (Definite (fold_left (fun acc b => N.shiftl acc 8 mod word_limit + b) (take k bs1) 0),
              drop k bs1)
  end.

(** ** the allocator, as in ModelHeap.v *)
Definition w_alloc (al : allocator) (n : N) : M N := fun h =>
  if word_max <? n then Crash
  else if n =? 0 then UB
  else match al_pick al h n with
       | None => Abort
       | Some a => Done a (h_set a (new_octets al h a n) h)
       end.
Definition w_realloc (al : allocator) (p old new : N) : M N := fun h =>
  if word_max <? old then Crash
  else
    match h_get p h with
    | Some c =>
        if negb (nlen c =? old) then UB
        else if (new =? 0) || (word_max <? new) then UB
        else
          let h1 := h_del p h in
          match al_pick al h1 new with
          | None => Abort
          | Some a => Done a (h_set a (take new c ++ new_octets al h1 a (new - nlen c)) h1)
          end
    | None => UB
    end.
Definition w_vec_from_slice (al : allocator) (bs : list N) : M vec :=
  if nlen bs =? 0 then mret vec_new
  else
    p <-- w_alloc al (nlen bs) ;
    _ <-- store p 0 bs ;
    mret {| v_ptr := p; v_cap := nlen bs; v_len := nlen bs |}.
Definition w_vec_make (al : allocator) (bs : list N) (spare : N) : M vec :=
  if nlen bs + spare =? 0 then mret vec_new
  else
    p <-- w_alloc al (nlen bs + spare) ;
    _ <-- store p 0 bs ;
    mret {| v_ptr := p; v_cap := nlen bs + spare; v_len := nlen bs |}.

(** ** little_endian/mod.rs *)
(** 27-32: three words *)
Definition wle_word (i : N) (r : list N) : N := le_value (take w (drop (w * i) r)).
Definition wle_set_word (i v : N) (r : list N) : list N := take (w * i) r ++ le_octets (N.to_nat w) v ++ drop (w * i + w) r.
Definition wle_data := wle_word 0.
Definition wle_cap_ := wle_word 1.
Definition wle_len_ := wle_word 2.
(** 21-25: [1 << (usize::BITS - 1)], [!HEAP_FLAG], [size_of::<Buffer>() - 1] *)
Definition W_HEAP_FLAG : N := 2 ^ (8 * w - 1).
Definition W_LEN_MASK : N := 2 ^ (8 * w - 1) - 1.
Definition WLE_INIT_CAPACITY : N := 3 * w - 1.
(** 183-185 *)
Definition wle_is_stack (r : list N) : bool := N.land (wle_len_ r) W_HEAP_FLAG =? 0.
(** 59-65 *)
Definition wle_new : list N := repeat 0 (N.to_nat (3 * w)).
(** 109-115 *)
Definition wle_len (r : list N) : N :=
  if wle_is_stack r then N.shiftr (wle_len_ r) (8 * w - 8) else N.land (wle_len_ r) W_LEN_MASK.
(** 117-123 *)
Definition wle_capacity (r : list N) : N := if wle_is_stack r then WLE_INIT_CAPACITY else wle_cap_ r.
(** 159-167 *)
Definition wle_set_len (len : N) (r : list N) : M (list N) :=
  if wle_is_stack r then
    let MASK := N.shiftl 0xff (8 * w - 8) in
    let r1 := wle_set_word 2 (N.land (wle_len_ r) (N.lxor MASK (word_limit - 1))) r in
    mret (wle_set_word 2 (N.lor (wle_len_ r1) (N.shiftl len (8 * w - 8) mod word_limit)) r1)
  else mret (wle_set_word 2 (N.lor len W_HEAP_FLAG) r).
(** 169-181 *)
Definition wle_load (off n : N) (r : list N) : M (list N) :=
  if wle_is_stack r then (if nlen r <? off + n then mub else mret (take n (drop off r)))
  else load (wle_data r) off n.
Definition wle_store (off : N) (src : list N) (r : list N) : M (list N) :=
  if wle_is_stack r then
    (if nlen r <? off + nlen src then mub else mret (take off r ++ src ++ drop (off + nlen src) r))
  else _ <-- store (wle_data r) off src ; mret r.
(** 125-157 *)
Definition wle_reserve (al : allocator) (additional : N) (r : list N) : M (list N) :=
  let new_cap := wle_len r + additional in
  if word_limit <=? new_cap then mcrash
  else if new_cap <=? wle_capacity r then mret r
  else if wle_is_stack r then
    ptr <-- w_alloc al new_cap ;
    bs <-- wle_load 0 (wle_len r) r ;
    _ <-- store ptr 0 bs ;
    let r1 := wle_set_word 0 ptr r in
    let r2 := wle_set_word 1 new_cap r1 in
    mret (wle_set_word 2 (N.lor (wle_len r2) W_HEAP_FLAG) r2)
  else
    ptr <-- w_realloc al (wle_data r) (wle_capacity r) new_cap ;
    mret (wle_set_word 1 new_cap (wle_set_word 0 ptr r)).
(** 67-71 *)
Definition wle_with_capacity (al : allocator) (cap : N) : M (list N) := wle_reserve al cap wle_new.
(** 73-87 *)
Definition wle_from_vec (v : vec) : M (list N) :=
  if v_cap v =? 0 then (_ <-- vec_drop v ; mret wle_new)
  else mret (le_octets (N.to_nat w) (v_ptr v) ++ le_octets (N.to_nat w) (v_cap v) ++ le_octets (N.to_nat w) (N.lor (v_len v) W_HEAP_FLAG)).
(** 92-98 *)
Definition wle_push (v : N) (r : list N) : M (list N) :=
  let old_len := wle_len r in
  if old_len <? wle_capacity r then
    r1 <-- wle_set_len (old_len + 1) r ;
    if old_len <? wle_len r1 then wle_store old_len [v] r1 else mcrash
  else mcrash.
(** 103-107 *)
Definition wle_extend (vals : list N) (r : list N) : M (list N) :=
  r1 <-- wle_store (wle_len r) vals r ;
  wle_set_len (wle_len r1 + nlen vals) r1.
(** 37-48 *)
Definition wle_drop (r : list N) : M unit :=
  if wle_is_stack r then mret tt else dealloc (wle_data r) (wle_cap_ r).
(** 50-56 *)
Definition wle_clone (al : allocator) (r : list N) : M (list N) :=
  ret <-- wle_with_capacity al (wle_len r) ;
  s <-- wle_load 0 (wle_len r) r ;
  wle_extend s ret.
(** 195-205 *)
Definition wle_into_vec (al : allocator) (r : list N) : M vec :=
  if wle_is_stack r then
    s <-- wle_load 0 (wle_len r) r ;
    v <-- w_vec_from_slice al s ;
    _ <-- wle_drop r ;
    mret v
  else mret {| v_ptr := wle_data r; v_len := wle_len r; v_cap := wle_cap_ r |}.
Definition WLE : layout := {|
  L_raw := list N; L_init_cap := WLE_INIT_CAPACITY; L_new := wle_new; L_with_capacity := wle_with_capacity;
  L_from_vec := wle_from_vec; L_len := wle_len; L_capacity := wle_capacity; L_reserve := wle_reserve;
  L_set_len := wle_set_len; L_push := wle_push; L_extend := wle_extend; L_load := wle_load; L_store := wle_store;
  L_clone := wle_clone; L_into_vec := wle_into_vec; L_drop := wle_drop |}.

(** ** universal_endian/mod.rs *)
(** 20-23, 113-131: the union holds two words *)
Definition wue_data (r : ue_raw) : N := ue_value (take w (u_union r)).
Definition wue_cap_ (r : ue_raw) : N := ue_value (drop w (u_union r)).
Definition wue_heap_union (data cap : N) : list N := be_tail (N.to_nat w) data ++ be_tail (N.to_nat w) cap.
(** 124-126, 86-93 *)
Definition WUE_INIT_CAPACITY : N := 2 * w.
(** 277-279 *)
Definition wue_is_stack (r : ue_raw) : bool := N.land (u_len_ r) W_HEAP_FLAG =? 0.
(** 159-166, 96-100 *)
Definition wue_new : ue_raw := {| u_len_ := 0; u_union := repeat 0 (N.to_nat (2 * w)) |}.
(** 219-221 *)
Definition wue_len (r : ue_raw) : N := N.land (u_len_ r) W_LEN_MASK.
(** 223-229 *)
Definition wue_capacity (r : ue_raw) : N := if wue_is_stack r then WUE_INIT_CAPACITY else wue_cap_ r.
(** 36-51 *)
Definition wue_heap_new (al : allocator) (capacity : N) : M (list N) :=
  if capacity =? 0 then mcrash
  else (data <-- w_alloc al capacity ; mret (wue_heap_union data capacity)).
(** 168-179 *)
Definition wue_with_capacity (al : allocator) (capacity : N) : M ue_raw :=
  if capacity <=? WUE_INIT_CAPACITY then mret wue_new
  else (u <-- wue_heap_new al capacity ; mret {| u_len_ := N.lor 0 W_HEAP_FLAG; u_union := u |}).
(** 181-197 *)
Definition wue_from_vec (v : vec) : M ue_raw :=
  if v_cap v =? 0 then (_ <-- vec_drop v ; mret wue_new)
  else mret {| u_len_ := N.lor (v_len v) W_HEAP_FLAG; u_union := wue_heap_union (v_ptr v) (v_cap v) |}.
(** 261-265 *)
Definition wue_set_len (new_len : N) (r : ue_raw) : M ue_raw :=
  if wue_capacity r <? new_len then mcrash
  else mret {| u_len_ := N.lor (N.land (u_len_ r) W_HEAP_FLAG) new_len; u_union := u_union r |}.
(** 231-239, 267-275 *)
Definition wue_load (off n : N) (r : ue_raw) : M (list N) :=
  if wue_is_stack r then (if nlen (u_union r) <? off + n then mub else mret (take n (drop off (u_union r))))
  else load (wue_data r) off n.
Definition wue_store (off : N) (src : list N) (r : ue_raw) : M ue_raw :=
  if wue_is_stack r then
    (if nlen (u_union r) <? off + nlen src then mub
     else mret {| u_len_ := u_len_ r; u_union := take off (u_union r) ++ src ++ drop (off + nlen src) (u_union r) |})
  else _ <-- store (wue_data r) off src ; mret r.
(** 241-259, 64-76 *)
Definition wue_reserve (al : allocator) (additional : N) (r : ue_raw) : M ue_raw :=
  let new_cap := wue_len r + additional in
  if word_limit <=? new_cap then mcrash
  else if new_cap <=? wue_capacity r then mret r
  else if wue_is_stack r then
    u <-- wue_heap_new al new_cap ;
    bs <-- wue_load 0 (wue_len r) r ;
    _ <-- store (ue_value (take w u)) 0 bs ;
    mret {| u_len_ := N.lor (u_len_ r) W_HEAP_FLAG; u_union := u |}
  else
    data <-- w_realloc al (wue_data r) (wue_cap_ r) new_cap ;
    mret {| u_len_ := u_len_ r; u_union := wue_heap_union data new_cap |}.
(** 202-208 *)
Definition wue_push (v : N) (r : ue_raw) : M ue_raw :=
  let old_len := wue_len r in
  if old_len <? wue_capacity r then
    r1 <-- wue_set_len (old_len + 1) r ;
    if old_len <? wue_len r1 then wue_store old_len [v] r1 else mcrash
  else mcrash.
(** 213-217 *)
Definition wue_extend (vals : list N) (r : ue_raw) : M ue_raw :=
  r1 <-- wue_store (wue_len r) vals r ;
  wue_set_len (wue_len r1 + nlen vals) r1.
(** 136-148, 26-33 *)
Definition wue_drop (r : ue_raw) : M unit :=
  if wue_is_stack r then mret tt else dealloc (wue_data r) (wue_cap_ r).
(** 150-156 *)
Definition wue_clone (al : allocator) (r : ue_raw) : M ue_raw :=
  ret <-- wue_with_capacity al (wue_len r) ;
  s <-- wue_load 0 (wue_len r) r ;
  wue_extend s ret.
(** 281-291 *)
Definition wue_into_vec (al : allocator) (r : ue_raw) : M vec :=
  if wue_is_stack r then
    s <-- wue_load 0 (wue_len r) r ;
    v <-- w_vec_from_slice al s ;
    _ <-- wue_drop r ;
    mret v
  else mret {| v_ptr := wue_data r; v_len := wue_len r; v_cap := wue_capacity r |}.
Definition WUE : layout := {|
  L_raw := ue_raw; L_init_cap := WUE_INIT_CAPACITY; L_new := wue_new; L_with_capacity := wue_with_capacity;
  L_from_vec := wue_from_vec; L_len := wue_len; L_capacity := wue_capacity; L_reserve := wue_reserve;
  L_set_len := wue_set_len; L_push := wue_push; L_extend := wue_extend; L_load := wue_load; L_store := wue_store;
  L_clone := wue_clone; L_into_vec := wue_into_vec; L_drop := wue_drop |}.

(** A history of the buffer (SpecBuf.v): vectors come from the allocator of this machine. *)
Definition w_rstep (L : layout) (al : allocator) (o : bop) (v : env (var (L_raw L))) : M (env (var (L_raw L))) :=
  match o with
  | OVec i bs spare => (x <-- w_vec_make al bs spare ; mret (upd i (VVec x) v))
  | _ => rstep L al o v
  end.
Fixpoint w_rrun (L : layout) (al : allocator) (os : list bop) (v : env (var (L_raw L))) : M (env (var (L_raw L))) :=
  match os with [] => mret v | o :: os' => (v' <-- w_rstep L al o v ; w_rrun L al os' v') end.
End WORD.
