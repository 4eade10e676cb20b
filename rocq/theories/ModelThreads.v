(** Several threads using buffers: [unsafe impl Send for Buffer], [unsafe impl Sync for
    Buffer] (little_endian/mod.rs:34-35, universal_endian/mod.rs:133-134).  The operations of both layouts
    again, as the sequences of memory accesses they make, so that other threads can act between any two of them. *)
From Verif Require Import Base ModelTag ModelBuf ModelHeap ModelBufLE ModelBufUE SpecBuf.

(** ** Memory accesses *)
Inductive prog (A : Type) :=
| PRet (a : A)
| PAlloc (n : N) (k : N -> prog A)
| PDealloc (p size : N) (k : prog A)
| PRealloc (p old new : N) (k : N -> prog A)
| PLoad (p off n : N) (k : list N -> prog A)
| PStore (p off : N) (src : list N) (k : prog A)
| PCrash
| PUB.
Arguments PRet {A} a.
Arguments PAlloc {A} n k.
Arguments PDealloc {A} p size k.
Arguments PRealloc {A} p old new k.
Arguments PLoad {A} p off n k.
Arguments PStore {A} p off src k.
Arguments PCrash {A}.
Arguments PUB {A}.
Fixpoint pbind {A B} (m : prog A) (k : A -> prog B) : prog B :=
  match m with
  | PRet a => k a
  | PAlloc n c => PAlloc n (fun a => pbind (c a) k)
  | PDealloc p size c => PDealloc p size (pbind c k)
  | PRealloc p old new c => PRealloc p old new (fun a => pbind (c a) k)
  | PLoad p off n c => PLoad p off n (fun bs => pbind (c bs) k)
  | PStore p off src c => PStore p off src (pbind c k)
  | PCrash => PCrash
  | PUB => PUB
  end.
Notation "x <~ m ; k" := (pbind m (fun x => k)) (at level 61, m at next level, right associativity).
Definition p_alloc (n : N) : prog N := PAlloc n PRet.
Definition p_dealloc (p size : N) : prog unit := PDealloc p size (PRet tt).
Definition p_realloc (p old new : N) : prog N := PRealloc p old new PRet.
Definition p_load (p off n : N) : prog (list N) := PLoad p off n PRet.
Definition p_store (p off : N) (src : list N) : prog unit := PStore p off src (PRet tt).

(** The next access of a program, and what is left of the program. *)
Definition access (al : allocator) {A} (m : prog A) : M (prog A) :=
  match m with
  | PRet a => mret (PRet a)
  | PAlloc n k => (a <-- alloc al n ; mret (k a))
  | PDealloc p size k => (_ <-- dealloc p size ; mret k)
  | PRealloc p old new k => (a <-- realloc al p old new ; mret (k a))
  | PLoad p off n k => (bs <-- load p off n ; mret (k bs))
  | PStore p off src k => (_ <-- store p off src ; mret k)
  | PCrash => mcrash
  | PUB => mub
  end.
(** All the accesses, without any other thread in between. *)
Fixpoint exec (al : allocator) {A} (m : prog A) : M A :=
  match m with
  | PRet a => mret a
  | PAlloc n k => (a <-- alloc al n ; exec al (k a))
  | PDealloc p size k => (_ <-- dealloc p size ; exec al k)
  | PRealloc p old new k => (a <-- realloc al p old new ; exec al (k a))
  | PLoad p off n k => (bs <-- load p off n ; exec al (k bs))
  | PStore p off src k => (_ <-- store p off src ; exec al k)
  | PCrash => mcrash
  | PUB => mub
  end.
(** The block that the next access reads or writes.  The allocator synchronises its own
    accesses. *)
Definition reads_block {A} (m : prog A) : option N := match m with PLoad p _ _ _ => Some p | _ => None end.
Definition writes_block {A} (m : prog A) : option N :=
  match m with PStore p _ _ _ | PDealloc p _ _ | PRealloc p _ _ _ => Some p | _ => None end.

(** ** Vec (as in ModelHeap) *)
Definition p_vec_from_slice (bs : list N) : prog vec :=
  if nlen bs =? 0 then PRet vec_new
  else p <~ p_alloc (nlen bs) ; _ <~ p_store p 0 bs ; PRet {| v_ptr := p; v_cap := nlen bs; v_len := nlen bs |}.
Definition p_vec_make (bs : list N) (spare : N) : prog vec :=
  if nlen bs + spare =? 0 then PRet vec_new
  else p <~ p_alloc (nlen bs + spare) ; _ <~ p_store p 0 bs ; PRet {| v_ptr := p; v_cap := nlen bs + spare; v_len := nlen bs |}.
Definition p_vec_drop (v : vec) : prog unit :=
  if v_cap v =? 0 then PRet tt else p_dealloc (v_ptr v) (v_cap v).

(** ** The layouts (as in ModelBufLE and ModelBufUE, same lines) *)
Record programs (R : Type) := {
  P_with_capacity : N -> prog R; P_from_vec : vec -> prog R; P_reserve : N -> R -> prog R; P_set_len : N -> R -> prog R;
  P_push : N -> R -> prog R; P_extend : list N -> R -> prog R; P_load : N -> N -> R -> prog (list N); P_store : N -> list N -> R -> prog R;
  P_clone : R -> prog R; P_into_vec : R -> prog vec; P_drop : R -> prog unit }.
Arguments P_with_capacity {R}. Arguments P_from_vec {R}. Arguments P_reserve {R}. Arguments P_set_len {R}.
Arguments P_push {R}. Arguments P_extend {R}. Arguments P_load {R}. Arguments P_store {R}.
Arguments P_clone {R}. Arguments P_into_vec {R}. Arguments P_drop {R}.

Definition ple_set_len (len : N) (r : le_raw) : prog le_raw :=
  if le_is_stack r then
    let MASK := N.shiftl 0xff (64 - 8) in
    let r1 := le_set_word 2 (N.land (le_len_ r) (N.lxor MASK (usize_limit - 1))) r in
    PRet (le_set_word 2 (N.lor (le_len_ r1) (N.shiftl len (64 - 8) mod usize_limit)) r1)
  else PRet (le_set_word 2 (N.lor len HEAP_FLAG) r).
Definition ple_load (off n : N) (r : le_raw) : prog (list N) :=
  if le_is_stack r then (if nlen r <? off + n then PUB else PRet (take n (drop off r))) else p_load (le_data r) off n.
Definition ple_store (off : N) (src : list N) (r : le_raw) : prog le_raw :=
  if le_is_stack r then
    (if nlen r <? off + nlen src then PUB else PRet (take off r ++ src ++ drop (off + nlen src) r))
  else _ <~ p_store (le_data r) off src ; PRet r.
Definition ple_reserve (additional : N) (r : le_raw) : prog le_raw :=
  let new_cap := le_len r + additional in
  if usize_limit <=? new_cap then PCrash
  else if new_cap <=? le_capacity r then PRet r
  else if le_is_stack r then
    ptr <~ p_alloc new_cap ;
    bs <~ ple_load 0 (le_len r) r ;
    _ <~ p_store ptr 0 bs ;
    let r1 := le_set_word 0 ptr r in
    let r2 := le_set_word 1 new_cap r1 in
    PRet (le_set_word 2 (N.lor (le_len r2) HEAP_FLAG) r2)
  else
    ptr <~ p_realloc (le_data r) (le_capacity r) new_cap ;
    PRet (le_set_word 1 new_cap (le_set_word 0 ptr r)).
Definition ple_with_capacity (cap : N) : prog le_raw := ple_reserve cap le_new.
Definition ple_from_vec (v : vec) : prog le_raw :=
  if v_cap v =? 0 then (_ <~ p_vec_drop v ; PRet le_new)
  else PRet (le_octets 8 (v_ptr v) ++ le_octets 8 (v_cap v) ++ le_octets 8 (N.lor (v_len v) HEAP_FLAG)).
Definition ple_push (v : N) (r : le_raw) : prog le_raw :=
  let old_len := le_len r in
  if old_len <? le_capacity r then
    r1 <~ ple_set_len (old_len + 1) r ;
    if old_len <? le_len r1 then ple_store old_len [v] r1 else PCrash
  else PCrash.
Definition ple_extend (vals : list N) (r : le_raw) : prog le_raw :=
  r1 <~ ple_store (le_len r) vals r ;
  ple_set_len (le_len r1 + nlen vals) r1.
Definition ple_drop (r : le_raw) : prog unit :=
  if le_is_stack r then PRet tt else p_dealloc (le_data r) (le_cap_ r).
Definition ple_clone (r : le_raw) : prog le_raw :=
  ret <~ ple_with_capacity (le_len r) ;
  s <~ ple_load 0 (le_len r) r ;
  ple_extend s ret.
Definition ple_into_vec (r : le_raw) : prog vec :=
  if le_is_stack r then
    s <~ ple_load 0 (le_len r) r ;
    v <~ p_vec_from_slice s ;
    _ <~ ple_drop r ;
    PRet v
  else PRet {| v_ptr := le_data r; v_len := le_len r; v_cap := le_cap_ r |}.
Definition PLE : programs le_raw := {|
  P_with_capacity := ple_with_capacity; P_from_vec := ple_from_vec; P_reserve := ple_reserve; P_set_len := ple_set_len;
  P_push := ple_push; P_extend := ple_extend; P_load := ple_load; P_store := ple_store; P_clone := ple_clone;
  P_into_vec := ple_into_vec; P_drop := ple_drop |}.

Definition pue_heap_new (capacity : N) : prog (list N) :=
  if capacity =? 0 then PCrash else (data <~ p_alloc capacity ; PRet (ue_heap_union data capacity)).
Definition pue_with_capacity (capacity : N) : prog ue_raw :=
  if capacity <=? UE_INIT_CAPACITY then PRet ue_new
  else (u <~ pue_heap_new capacity ; PRet {| u_len_ := N.lor 0 UE_HEAP_FLAG; u_union := u |}).
Definition pue_from_vec (v : vec) : prog ue_raw :=
  if v_cap v =? 0 then (_ <~ p_vec_drop v ; PRet ue_new)
  else PRet {| u_len_ := N.lor (v_len v) UE_HEAP_FLAG; u_union := ue_heap_union (v_ptr v) (v_cap v) |}.
Definition pue_set_len (new_len : N) (r : ue_raw) : prog ue_raw :=
  if ue_capacity r <? new_len then PCrash
  else PRet {| u_len_ := N.lor (N.land (u_len_ r) UE_HEAP_FLAG) new_len; u_union := u_union r |}.
Definition pue_load (off n : N) (r : ue_raw) : prog (list N) :=
  if ue_is_stack r then (if nlen (u_union r) <? off + n then PUB else PRet (take n (drop off (u_union r))))
  else p_load (ue_data r) off n.
Definition pue_store (off : N) (src : list N) (r : ue_raw) : prog ue_raw :=
  if ue_is_stack r then
    (if nlen (u_union r) <? off + nlen src then PUB
     else PRet {| u_len_ := u_len_ r; u_union := take off (u_union r) ++ src ++ drop (off + nlen src) (u_union r) |})
  else _ <~ p_store (ue_data r) off src ; PRet r.
Definition pue_reserve (additional : N) (r : ue_raw) : prog ue_raw :=
  let new_cap := ue_len r + additional in
  if usize_limit <=? new_cap then PCrash
  else if new_cap <=? ue_capacity r then PRet r
  else if ue_is_stack r then
    u <~ pue_heap_new new_cap ;
    bs <~ pue_load 0 (ue_len r) r ;
    _ <~ p_store (ue_value (take 8 u)) 0 bs ;
    PRet {| u_len_ := N.lor (u_len_ r) UE_HEAP_FLAG; u_union := u |}
  else
    data <~ p_realloc (ue_data r) (ue_cap_ r) new_cap ;
    PRet {| u_len_ := u_len_ r; u_union := ue_heap_union data new_cap |}.
Definition pue_push (v : N) (r : ue_raw) : prog ue_raw :=
  let old_len := ue_len r in
  if old_len <? ue_capacity r then
    r1 <~ pue_set_len (old_len + 1) r ;
    if old_len <? ue_len r1 then pue_store old_len [v] r1 else PCrash
  else PCrash.
Definition pue_extend (vals : list N) (r : ue_raw) : prog ue_raw :=
  r1 <~ pue_store (ue_len r) vals r ;
  pue_set_len (ue_len r1 + nlen vals) r1.
Definition pue_drop (r : ue_raw) : prog unit :=
  if ue_is_stack r then PRet tt else p_dealloc (ue_data r) (ue_cap_ r).
Definition pue_clone (r : ue_raw) : prog ue_raw :=
  ret <~ pue_with_capacity (ue_len r) ;
  s <~ pue_load 0 (ue_len r) r ;
  pue_extend s ret.
Definition pue_into_vec (r : ue_raw) : prog vec :=
  if ue_is_stack r then
    s <~ pue_load 0 (ue_len r) r ;
    v <~ p_vec_from_slice s ;
    _ <~ pue_drop r ;
    PRet v
  else PRet {| v_ptr := ue_data r; v_len := ue_len r; v_cap := ue_capacity r |}.
Definition PUE : programs ue_raw := {|
  P_with_capacity := pue_with_capacity; P_from_vec := pue_from_vec; P_reserve := pue_reserve; P_set_len := pue_set_len;
  P_push := pue_push; P_extend := pue_extend; P_load := pue_load; P_store := pue_store; P_clone := pue_clone;
  P_into_vec := pue_into_vec; P_drop := pue_drop |}.

(** ** One operation of a thread on its own variables (as [rstep]) *)
Definition pstep (L : layout) (P : programs (L_raw L)) (o : bop) (v : env (var (L_raw L))) : prog (env (var (L_raw L))) :=
  let put i (m : prog (L_raw L)) := (r <~ m ; PRet (upd i (VBuf r) v)) in
  let on_buf i (f : L_raw L -> prog (L_raw L)) := match v i with VBuf r => put i (f r) | _ => PUB end in
  match o with
  | ONew i => put i (PRet (L_new L))
  | OWithCapacity i k => put i (P_with_capacity P k)
  | OFromSlice i bs => put i (b <~ P_with_capacity P (nlen bs) ; P_extend P bs b)
  | OVec i bs spare => (x <~ p_vec_make bs spare ; PRet (upd i (VVec x) v))
  | OFromVec i => match v i with VVec x => put i (P_from_vec P x) | _ => PUB end
  | OIntoVec i => match v i with VBuf r => (x <~ P_into_vec P r ; PRet (upd i (VVec x) v)) | _ => PUB end
  | OClone i j => match v i with VBuf r => put j (P_clone P r) | _ => PUB end
  | ODrop i =>
      match v i with
      | VBuf r => (_ <~ P_drop P r ; PRet (upd i VEmpty v))
      | VVec x => (_ <~ p_vec_drop x ; PRet (upd i VEmpty v))
      | VEmpty => PRet (upd i VEmpty v)
      end
  | OReserve i k => on_buf i (P_reserve P k)
  | OPush i x => on_buf i (P_push P x)
  | OExtend i bs => on_buf i (P_extend P bs)
  | OSetLen i n => on_buf i (fun r => if L_capacity L r <? n then PCrash else P_set_len P n r)
  | OStore i off bs => on_buf i (P_store P off bs)
  | OMove i src dst n => on_buf i (fun r => bs <~ P_load P src n r ; P_store P dst bs r)
  | OWrite i bs => on_buf i (fun r => b <~ P_reserve P (nlen bs) r ; P_extend P bs b)
  end.
