(** The release profile: arithmetic wraps around and [debug_assert!] is gone.  The functions that
    differ from those of ModelBufLE.v, ModelBufUE.v, ModelTlvRaw.v and ModelUnwind.v. *)
From Verif Require Import Base ModelIo ModelTag ModelContents ModelBuf ModelTlv ModelHeap ModelBufLE ModelBufUE ModelTlvRaw ModelUnwind SpecBuf SpecTlv.

(** [x + y] and [x - y] on usize. *)
Definition wadd (x y : N) : N := (x + y) mod usize_limit.
Definition wsub (x y : N) : N := (x + usize_limit - y) mod usize_limit.

(** ** little_endian/mod.rs *)
(** 125-157 *)
Definition le_reserve_rel (al : allocator) (additional : N) (r : le_raw) : M le_raw :=
  let new_cap := wadd (le_len r) additional in
  if new_cap <=? le_capacity r then mret r
  else if le_is_stack r then
    ptr <-- alloc al new_cap ;
    bs <-- le_load 0 (le_len r) r ;
    _ <-- store ptr 0 bs ;
    let r1 := le_set_word 0 ptr r in
    let r2 := le_set_word 1 new_cap r1 in
    mret (le_set_word 2 (N.lor (le_len r2) HEAP_FLAG) r2)
  else
    ptr <-- realloc al (le_data r) (le_capacity r) new_cap ;
    mret (le_set_word 1 new_cap (le_set_word 0 ptr r)).
(** 67-71 *)
Definition le_with_capacity_rel (al : allocator) (cap : N) : M le_raw := le_reserve_rel al cap le_new.
(** 92-98 *)
Definition le_push_rel (v : N) (r : le_raw) : M le_raw :=
  let old_len := le_len r in
  r1 <-- le_set_len (wadd old_len 1) r ;
  if old_len <? le_len r1 then le_store old_len [v] r1 else mcrash.
(** 103-107 *)
Definition le_extend_rel (vals : list N) (r : le_raw) : M le_raw :=
  r1 <-- le_store (le_len r) vals r ;
  le_set_len (wadd (le_len r1) (nlen vals)) r1.
(** 50-56 *)
Definition le_clone_rel (al : allocator) (r : le_raw) : M le_raw :=
  ret <-- le_with_capacity_rel al (le_len r) ;
  s <-- le_load 0 (le_len r) r ;
  le_extend_rel s ret.

(** ** universal_endian/mod.rs *)
(** HeapBuffer::new, 36-51 *)
Definition ue_heap_new_rel (al : allocator) (capacity : N) : M (list N) :=
  data <-- alloc al capacity ; mret (ue_heap_union data capacity).
(** 168-179 *)
Definition ue_with_capacity_rel (al : allocator) (capacity : N) : M ue_raw :=
  if capacity <=? UE_INIT_CAPACITY then mret ue_new
  else (u <-- ue_heap_new_rel al capacity ; mret {| u_len_ := N.lor 0 UE_HEAP_FLAG; u_union := u |}).
(** 261-265 *)
Definition ue_set_len_rel (new_len : N) (r : ue_raw) : M ue_raw :=
  mret {| u_len_ := N.lor (N.land (u_len_ r) UE_HEAP_FLAG) new_len; u_union := u_union r |}.
(** 241-259, 64-76 *)
Definition ue_reserve_rel (al : allocator) (additional : N) (r : ue_raw) : M ue_raw :=
  let new_cap := wadd (ue_len r) additional in
  if new_cap <=? ue_capacity r then mret r
  else if ue_is_stack r then
    u <-- ue_heap_new_rel al new_cap ;
    bs <-- ue_load 0 (ue_len r) r ;
    _ <-- store (ue_value (take 8 u)) 0 bs ;
    mret {| u_len_ := N.lor (u_len_ r) UE_HEAP_FLAG; u_union := u |}
  else
    data <-- realloc al (ue_data r) (ue_cap_ r) new_cap ;
    mret {| u_len_ := u_len_ r; u_union := ue_heap_union data new_cap |}.
(** 202-208 *)
Definition ue_push_rel (v : N) (r : ue_raw) : M ue_raw :=
  let old_len := ue_len r in
  r1 <-- ue_set_len_rel (wadd old_len 1) r ;
  if old_len <? ue_len r1 then ue_store old_len [v] r1 else mcrash.
(** 213-217 *)
Definition ue_extend_rel (vals : list N) (r : ue_raw) : M ue_raw :=
  r1 <-- ue_store (ue_len r) vals r ;
  ue_set_len_rel (wadd (ue_len r1) (nlen vals)) r1.
(** 150-156 *)
Definition ue_clone_rel (al : allocator) (r : ue_raw) : M ue_raw :=
  ret <-- ue_with_capacity_rel al (ue_len r) ;
  s <-- ue_load 0 (ue_len r) r ;
  ue_extend_rel s ret.

(** What differs in a layout; the rest is as in the dev profile. *)
Record rel_ops (raw : Type) := {
  r_with_capacity : allocator -> N -> M raw;
  r_reserve : allocator -> N -> raw -> M raw;
  r_set_len : N -> raw -> M raw;
  r_push : N -> raw -> M raw;
  r_extend : list N -> raw -> M raw;
  r_clone : allocator -> raw -> M raw
}.
Arguments r_with_capacity {raw}. Arguments r_reserve {raw}. Arguments r_set_len {raw}.
Arguments r_push {raw}. Arguments r_extend {raw}. Arguments r_clone {raw}.
Definition released (L : layout) (ops : rel_ops (L_raw L)) : layout := {|
  L_raw := L_raw L; L_init_cap := L_init_cap L; L_new := L_new L; L_with_capacity := r_with_capacity ops;
  L_from_vec := L_from_vec L; L_len := L_len L; L_capacity := L_capacity L; L_reserve := r_reserve ops;
  L_set_len := r_set_len ops; L_push := r_push ops; L_extend := r_extend ops; L_load := L_load L; L_store := L_store L;
  L_clone := r_clone ops; L_into_vec := L_into_vec L; L_drop := L_drop L |}.
Definition le_ops : rel_ops le_raw := {|
  r_with_capacity := le_with_capacity_rel; r_reserve := le_reserve_rel; r_set_len := le_set_len; r_push := le_push_rel;
  r_extend := le_extend_rel; r_clone := le_clone_rel |}.
Definition ue_ops : rel_ops ue_raw := {|
  r_with_capacity := ue_with_capacity_rel; r_reserve := ue_reserve_rel; r_set_len := ue_set_len_rel; r_push := ue_push_rel;
  r_extend := ue_extend_rel; r_clone := ue_clone_rel |}.
Definition LE_release : layout := released LE le_ops.
Definition UE_release : layout := released UE ue_ops.

(** A history of the buffer (SpecBuf.v): set_len is not checked (buffer/mod.rs:102-105). *)
Definition rel_rstep (L : layout) (al : allocator) (o : bop) (v : env (var (L_raw L))) : M (env (var (L_raw L))) :=
  match o with
  | OSetLen i n => match v i with VBuf r => (r' <-- L_set_len L n r ; mret (upd i (VBuf r') v)) | _ => mub end
  | _ => rstep L al o v
  end.
Fixpoint rel_rrun (L : layout) (al : allocator) (os : list bop) (v : env (var (L_raw L))) : M (env (var (L_raw L))) :=
  match os with [] => mret v | o :: os' => (v' <-- rel_rstep L al o v ; rel_rrun L al os' v') end.

(** ** Der and Ber *)
Section RAW.
Context (L : layout) (al : allocator).
Notation raw := (L_raw L).
(** bsn1/src/der.rs:102-119, ber.rs:234-249; [set_len] is buffer/mod.rs:102-105. *)
Definition rel_with_header (id length_ : list N) (length : N) : M raw :=
  let total_len := wadd (wadd (nlen id) (nlen length_)) length in
  b <-- L_with_capacity L al total_len ;
  b <-- L_store L 0 id b ;
  b <-- L_store L (nlen id) length_ b ;
  L_set_len L total_len b.
(** bsn1/src/der.rs:59-67, ber.rs:76-78 *)
Definition rel_new (id contents : list N) : M raw :=
  b <-- rel_with_header id (Length_to_bytes (Definite (nlen contents))) (nlen contents) ;
  raw_set_contents L contents b.
(** bsn1/src/ber.rs:141-148 *)
Definition rel_new_indefinite (id contents : list N) : M raw :=
  b <-- rel_with_header id (Length_to_bytes Indefinite) (nlen contents) ;
  raw_set_contents L contents b.
(** [fold(0, |acc, item| acc + item.as_ref().len())] *)
Fixpoint rel_total (acc : N) (items : list (list N)) : N :=
  match items with [] => acc | i :: items' => rel_total (wadd acc (nlen i)) items' end.
(** bsn1/src/der.rs:291-310, ber.rs:470-489 *)
Definition rel_from_iterator (id : list N) (length_bytes : N -> list N) (counted items : list (list N)) : M raw :=
  let length := rel_total 0 counted in
  let total_len := wadd (wadd (nlen id) (nlen (length_bytes length))) length in
  b <-- L_with_capacity L al total_len ;
  b <-- L_extend L id b ;
  b <-- L_extend L (length_bytes length) b ;
  raw_extend_all L items b.
Definition rel_Der_from_id_iterator (id : list N) (counted items : list (list N)) : M raw :=
  rel_from_iterator id (fun n => Length_to_bytes (Definite n)) counted items.
Definition rel_Ber_from_id_iterator_indefinite (id : list N) (counted items : list (list N)) : M raw :=
  rel_from_iterator id (fun _ => Length_to_bytes Indefinite) counted items.
(** bsn1/src/der.rs:375-429 *)
Definition rel_Der_extend (bytes : list N) (b : raw) : M raw :=
  bs <-- L_slice L b ;
  id <-- mlift (tlv_id bs) ;
  old_length <-- mlift (tlv_length bs) ;
  old_n <-- mlift (unwrap (Length_definite old_length)) ;
  let new_n := wadd old_n (nlen bytes) in
  let offset := wsub (wadd (nlen bytes) (Length_len (Definite new_n))) (Length_len old_length) in
  b <-- L_reserve L al offset b ;
  b <-- L_set_len L (wadd (L_len L b) offset) b ;
  b <-- (if nlen id + Length_len old_length =? nlen id + Length_len (Definite new_n) then mret b
         else L_move L (nlen id + Length_len old_length) (nlen id + Length_len (Definite new_n)) old_n b) ;
  b <-- L_store L (nlen id + Length_len (Definite new_n) + old_n) bytes b ;
  L_store L (nlen id) (Length_to_bytes (Definite new_n)) b.
(** bsn1/src/der.rs:463-492 *)
Definition rel_Der_truncate (new_length : N) (b : raw) : M raw :=
  bs <-- L_slice L b ;
  id <-- mlift (tlv_id bs) ;
  l <-- mlift (tlv_length bs) ;
  old_length <-- mlift (unwrap (Length_definite l)) ;
  if old_length <=? new_length then mret b
  else
    let old_length_ := Length_to_bytes (Definite old_length) in
    let new_length_ := Length_to_bytes (Definite new_length) in
    b <-- L_store L (nlen id) new_length_ b ;
    b <-- (if nlen new_length_ <? nlen old_length_
           then L_move L (nlen id + nlen old_length_) (nlen id + nlen new_length_) new_length b
           else mret b) ;
    L_set_len L (wadd (wadd (nlen id) (nlen new_length_)) new_length) b.
(** bsn1/src/ber.rs:601-623 *)
Definition rel_Ber_extend (bytes : list N) (b : raw) : M raw :=
  bs <-- L_slice L b ;
  l <-- mlift (tlv_length bs) ;
  match l with
  | Definite _ => rel_Der_extend bytes b
  | Indefinite =>
      b <-- L_reserve L al (nlen bytes) b ;
      b <-- L_store L (L_len L b) bytes b ;
      L_set_len L (wadd (L_len L b) (nlen bytes)) b
  end.
(** bsn1/src/ber.rs:668-684 *)
Definition rel_Ber_truncate (new_length : N) (b : raw) : M raw :=
  bs <-- L_slice L b ;
  l <-- mlift (tlv_length bs) ;
  match l with
  | Definite _ => rel_Der_truncate new_length b
  | Indefinite =>
      c <-- mlift (tlv_contents bs) ;
      if nlen c <=? new_length then mret b
      else L_set_len L (wsub (wadd (L_len L b) new_length) (nlen c)) b
  end.

(** ** programs (SpecTlv.v) *)
Definition rel_vraw (o : vop) (v : env (var raw)) : M (env (var raw)) :=
  let put i (m : M raw) := (r <-- m ; mret (upd i (VBuf r) v)) in
  let on_buf i (f : raw -> M raw) := match v i with VBuf r => put i (f r) | _ => mub end in
  match o with
  | VNew i (TDer id c) | VNew i (TBer false id c) => put i (rel_new id c)
  | VNew i (TBer true id c) => put i (rel_new_indefinite id c)
  | VIter i (TDer id _) items | VIter i (TBer false id _) items => put i (rel_Der_from_id_iterator id items items)
  | VIter i (TBer true id _) items => put i (rel_Ber_from_id_iterator_indefinite id items items)
  | VExtend TyDer i bs => on_buf i (rel_Der_extend bs)
  | VExtend TyBer i bs => on_buf i (rel_Ber_extend bs)
  | VPush TyDer i b => on_buf i (rel_Der_extend [b])
  | VPush TyBer i b => on_buf i (rel_Ber_extend [b])
  | VTruncate TyDer i n => on_buf i (rel_Der_truncate n)
  | VTruncate TyBer i n => on_buf i (rel_Ber_truncate n)
  | _ => vraw L al o v
  end.
Fixpoint rel_vraws (os : list vop) (v : env (var raw)) : M (env (var raw)) :=
  match os with [] => mret v | o :: os' => (v' <-- rel_vraw o v ; rel_vraws os' v') end.
End RAW.

(** ** parse, with unwinding *)
Section UNWIND.
Context (L : layout) (al : allocator) {S : Type}.
Notation "x <~ m ; k" := (bbind L m (fun x => k)) (at level 61, m at next level, right associativity).
(** bsn1/src/der.rs:169-198.  The index of [as_mut_slice()\[id_length_len..\]] is checked in every profile. *)
Definition rel_Der_body (R : user_reader S) (fuel : nat) : B L unit :=
  l <~ u_parse_id_length L al R fuel ;
  match l with
  | Indefinite => bfail L IndefiniteLength
  | Definite contents_length =>
      id_length_len <~ blen L ;
      let total_length := wadd id_length_len contents_length in
      _ <~ breserve L al contents_length ;
      _ <~ bmut L (L_set_len L total_length) ;
      len <~ blen L ;
      if len <? id_length_len then bpanic
      else
        read <~ bcall L (u_read R) id_length_len (len - id_length_len) ;
        if read <? contents_length then bfail L UnterminatedBytes else bret tt
  end.
Definition rel_Der_parse (R : user_reader S) (fuel : nat) (s : S) (h : heap) : ends S (L_raw L) :=
  owning L (rel_Der_body R fuel) s (L_new L) h.
(** bsn1/src/ber.rs:318-342 *)
Definition rel_Ber_do_parse (R : user_reader S) (fuel : nat) : B L Z :=
  init_len <~ blen L ;
  l <~ u_parse_id_length L al R fuel ;
  match l with
  | Definite length =>
      _ <~ breserve L al length ;
      current_len <~ blen L ;
      _ <~ bmut L (L_set_len L (wadd current_len length)) ;
      len <~ blen L ;
      if len <? current_len then bpanic
      else
        _ <~ bcall L (u_read_exact R) current_len (len - current_len) ;
        bs <~ bslice L ;
        bret (if bytes_eqb (drop init_len bs) EOC then (-1)%Z else 0%Z)
  | Indefinite => bret 1%Z
  end.
(** bsn1/src/ber.rs:303-316.  [stack_depth] stays below the number of octets read. *)
Fixpoint rel_Ber_loop (R : user_reader S) (ifuel fuel : nat) (stack_depth : Z) : B L unit :=
  match fuel with
  | O => fun s b h => Run NoFuel s b h
  | Datatypes.S fuel' =>
      d <~ rel_Ber_do_parse R ifuel ;
      if (0 <? stack_depth + d)%Z then rel_Ber_loop R ifuel fuel' (stack_depth + d)%Z else bret tt
  end.
Definition rel_Ber_parse (R : user_reader S) (fuel : nat) (s : S) (h : heap) : ends S (L_raw L) :=
  owning L (rel_Ber_loop R fuel fuel 0) s (L_new L) h.
End UNWIND.
