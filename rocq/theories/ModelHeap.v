(** Raw memory: the allocator, blocks, and std's Vec<u8> seen through its raw parts.
    The two buffer layouts (ModelBufLE.v, ModelBufUE.v) work on this. *)
From Verif Require Import Base ModelBuf.

(** Blocks of the global allocator by address of their first octet.  Pointers are such
    addresses; offsets into a block are checked against its size, so reaching a
    neighbouring block through a pointer is undefined behaviour, as in Rust. *)
Definition heap := list (N * list N).
Fixpoint h_get (a : N) (h : heap) : option (list N) :=
  match h with [] => None | (x, c) :: h' => if x =? a then Some c else h_get a h' end.
Definition h_del (a : N) (h : heap) : heap := filter (fun e => negb (fst e =? a)) h.
Definition h_set (a : N) (c : list N) (h : heap) : heap := (a, c) :: h_del a h.

(** How a computation on raw memory ends: with a value, by aborting the process
    (alloc::handle_alloc_error), by a panic, or in undefined behaviour. *)
Inductive outcome (A : Type) := Done (a : A) (h : heap) | Abort | Crash | UB.
Arguments Done {A} a h.
Arguments Abort {A}.
Arguments Crash {A}.
Arguments UB {A}.
Definition M (A : Type) := heap -> outcome A.
Definition mret {A} (a : A) : M A := fun h => Done a h.
Definition mcrash {A} : M A := fun _ => Crash.
Definition mub {A} : M A := fun _ => UB.
Definition mbind {A B} (m : M A) (k : A -> M B) : M B :=
  fun h => match m h with Done a h' => k a h' | Abort => Abort | Crash => Crash | UB => UB end.
Notation "x <-- m ; k" := (mbind m (fun x => k)) (at level 61, m at next level, right associativity).

(** The allocator: the address it would return for a new block (None: the null
    pointer), and the unspecified octets found there. *)
Record allocator := { al_pick : heap -> N -> option N; al_junk : heap -> N -> N -> N }.
(** New blocks are not null, fit in a pointer and are not blocks in use. *)
Definition good_allocator (al : allocator) : Prop :=
  forall h n a, al_pick al h n = Some a -> h_get a h = None /\ 0 < a /\ a < usize_limit.

Definition new_octets (al : allocator) (h : heap) (a n : N) : list N := junk_from (al_junk al h a) 0 (N.to_nat n).
(** [alloc::alloc(Layout::array::<u8>(n).unwrap())] and the check for null.  A size of
    zero is undefined behaviour. *)
Definition alloc (al : allocator) (n : N) : M N := fun h =>
  if isize_max <? n then Crash
  else if n =? 0 then UB
  else match al_pick al h n with
       | None => Abort
       | Some a => Done a (h_set a (new_octets al h a n) h)
       end.
(** [alloc::dealloc(p, layout)]: the block must exist and have the size of the layout. *)
Definition dealloc (p size : N) : M unit := fun h =>
  match h_get p h with
  | Some c => if nlen c =? size then Done tt (h_del p h) else UB
  | None => UB
  end.
(** [alloc::realloc(p, Layout::array(old).unwrap(), new)] and the check for null.
    Its contract: [new] is neither zero nor above isize::MAX. *)
Definition realloc (al : allocator) (p old new : N) : M N := fun h =>
  if isize_max <? old then Crash
  else
    match h_get p h with
    | Some c =>
        if negb (nlen c =? old) then UB
        else if (new =? 0) || (isize_max <? new) then UB
        else
          let h1 := h_del p h in
          match al_pick al h1 new with
          | None => Abort
          | Some a => Done a (h_set a (take new c ++ new_octets al h1 a (new - nlen c)) h1)
          end
    | None => UB
    end.
(** Reading and writing through a pointer into a block. *)
Definition load (p off n : N) : M (list N) := fun h =>
  match h_get p h with
  | Some c => if nlen c <? off + n then UB else Done (take n (drop off c)) h
  | None => UB
  end.
Definition store (p off : N) (src : list N) : M unit := fun h =>
  match h_get p h with
  | Some c => if nlen c <? off + nlen src then UB
              else Done tt (h_set p (take off c ++ src ++ drop (off + nlen src) c) h)
  | None => UB
  end.

(** Vec<u8>: pointer, capacity, length.  Without capacity there is no block. *)
Record vec := { v_ptr : N; v_cap : N; v_len : N }.
(** Vec::new *)
Definition vec_new : vec := {| v_ptr := 1; v_cap := 0; v_len := 0 |}.
(** [Vec::from(slice)]: exactly the needed capacity. *)
Definition vec_from_slice (al : allocator) (bs : list N) : M vec :=
  if nlen bs =? 0 then mret vec_new
  else
    p <-- alloc al (nlen bs) ;
    _ <-- store p 0 bs ;
    mret {| v_ptr := p; v_cap := nlen bs; v_len := nlen bs |}.
(** A vector made by other code: contents [bs] and [spare] octets of capacity more. *)
Definition vec_make (al : allocator) (bs : list N) (spare : N) : M vec :=
  if nlen bs + spare =? 0 then mret vec_new
  else
    p <-- alloc al (nlen bs + spare) ;
    _ <-- store p 0 bs ;
    mret {| v_ptr := p; v_cap := nlen bs + spare; v_len := nlen bs |}.
Definition vec_slice (v : vec) : M (list N) :=
  if v_cap v =? 0 then mret [] else load (v_ptr v) 0 (v_len v).
Definition vec_drop (v : vec) : M unit :=
  if v_cap v =? 0 then mret tt else dealloc (v_ptr v) (v_cap v).

(** What the wrapper buffer/mod.rs needs of a layout ([endian::Buffer]). *)
Record layout := {
  L_raw : Type;
  L_init_cap : N;
  L_new : L_raw;
  L_with_capacity : allocator -> N -> M L_raw;
  L_from_vec : vec -> M L_raw;
  L_len : L_raw -> N;
  L_capacity : L_raw -> N;
  L_reserve : allocator -> N -> L_raw -> M L_raw;
  L_set_len : N -> L_raw -> M L_raw;
  L_push : N -> L_raw -> M L_raw;
  L_extend : list N -> L_raw -> M L_raw;
  (** reads and writes through as_ptr / as_mut_ptr *)
  L_load : N -> N -> L_raw -> M (list N);
  L_store : N -> list N -> L_raw -> M L_raw;
  L_clone : allocator -> L_raw -> M L_raw;
  L_into_vec : allocator -> L_raw -> M vec;
  L_drop : L_raw -> M unit
}.
(** buffer/mod.rs:43-49 *)
Definition L_from_slice (L : layout) (al : allocator) (bs : list N) : M (L_raw L) :=
  b <-- L_with_capacity L al (nlen bs) ; L_extend L bs b.
(** buffer/mod.rs:102-105 with its debug assertion *)
Definition L_set_len_checked (L : layout) (n : N) (b : L_raw L) : M (L_raw L) :=
  if L_capacity L b <? n then mcrash else L_set_len L n b.
(** as_slice, little_endian/mod.rs:187-189, universal_endian/mod.rs:293-295 *)
Definition L_slice (L : layout) (b : L_raw L) : M (list N) := L_load L 0 (L_len L b) b.
(** buffer/mod.rs:201-206 *)
Definition L_io_write (L : layout) (al : allocator) (bs : list N) (b : L_raw L) : M (L_raw L) :=
  b <-- L_reserve L al (nlen bs) b ; L_extend L bs b.
