(** The buffer holding the octets of Der, Ber, Id and Contents, seen through its
    interface: bsn1/src/buffer/mod.rs.  The two layouts behind it
    (little_endian/mod.rs, universal_endian/mod.rs) are modelled octet by octet in
    ModelBufLE.v and ModelBufUE.v, and proved to refine these functions. *)
From Verif Require Import Base.

(** What differs between layouts and runs: the number of octets stored without
    heap (23 or 16; little_endian/mod.rs:25, universal_endian/mod.rs:126) and the
    unspecified octets of freshly allocated memory. *)
Record bufcfg := { init_cap : N; junk : N -> N }.
(** [n] octets of fresh, uninitialised memory. *)
Fixpoint junk_from (f : N -> N) (start : N) (k : nat) : list N :=
  match k with O => [] | S k' => f start mod 256 :: junk_from f (start + 1) k' end.
Definition fresh (cfg : bufcfg) (n : N) : list N := junk_from (junk cfg) 0 (N.to_nat n).

(** All the octets owned (the capacity is their number), how many are in use, and
    whether they are on the heap. *)
Record buf := { b_mem : list N; b_len : N; b_heap : bool }.
Definition bf_cap (b : buf) : N := nlen (b_mem b).

(** buffer/mod.rs:64-66 *)
Definition bf_new (cfg : bufcfg) : buf :=
  {| b_mem := repeat 0 (N.to_nat (init_cap cfg)); b_len := 0; b_heap := false |}.
(** buffer/mod.rs:98-100; little_endian/mod.rs:125-157, universal_endian/mod.rs:241-259.
    A capacity above isize::MAX panics ([Layout::array(..).unwrap()]) or breaks the
    contract of [realloc]; both are Panic here, as is the overflow of the sum.
    An allocator that runs out of memory aborts; not modelled. *)
Definition bf_reserve (cfg : bufcfg) (additional : N) (b : buf) : res buf :=
  let new_cap := b_len b + additional in
  if new_cap <=? bf_cap b then Ok b
  else if isize_max <? new_cap then Panic
  else
    let kept := if b_heap b then b_mem b else take (b_len b) (b_mem b) in
    Ok {| b_mem := kept ++ fresh cfg (new_cap - nlen kept); b_len := b_len b; b_heap := true |}.
(** buffer/mod.rs:68-70; little_endian/mod.rs:67-71, universal_endian/mod.rs:168-179 *)
Definition bf_with_capacity (cfg : bufcfg) (cap : N) : res buf := bf_reserve cfg cap (bf_new cfg).
(** buffer/mod.rs:102-105 with its debug assertion *)
Definition bf_set_len (n : N) (b : buf) : res buf :=
  if bf_cap b <? n then Panic else Ok {| b_mem := b_mem b; b_len := n; b_heap := b_heap b |}.
(** buffer/mod.rs:115-117 *)
Definition bf_slice (b : buf) : list N := take (b_len b) (b_mem b).

(** Raw memory: writing [src] at [off]; outside the owned octets is undefined
    behaviour (Panic). *)
Definition mem_write (off : N) (src mem : list N) : res (list N) :=
  if nlen mem <? off + nlen src then Panic
  else Ok (take off mem ++ src ++ drop (off + nlen src) mem).
(** Reading [n] octets at [off]. *)
Definition mem_read (off n : N) (mem : list N) : res (list N) :=
  if nlen mem <? off + n then Panic else Ok (take n (drop off mem)).
(** [as_mut_ptr().add(off).copy_from(src)]. *)
Definition bf_write (off : N) (src : list N) (b : buf) : res buf :=
  let! m := mem_write off src (b_mem b) in
  Ok {| b_mem := m; b_len := b_len b; b_heap := b_heap b |}.
(** [as_ptr().add(src).copy_to(as_mut_ptr().add(dst), n)] (memmove). *)
Definition bf_move (src dst n : N) (b : buf) : res buf :=
  let! t := mem_read src n (b_mem b) in bf_write dst t b.

(** buffer/mod.rs:79-81; little_endian/mod.rs:92-98, universal_endian/mod.rs:202-208 *)
Definition bf_push (v : N) (b : buf) : res buf :=
  let old_len := b_len b in
  if old_len <? bf_cap b then
    let! b1 := bf_set_len (old_len + 1) b in
    bf_write old_len [v] b1
  else Panic.
(** buffer/mod.rs:86-88; little_endian/mod.rs:103-107, universal_endian/mod.rs:213-217 *)
Definition bf_extend (vals : list N) (b : buf) : res buf :=
  let! b1 := bf_write (b_len b) vals b in
  bf_set_len (b_len b1 + nlen vals) b1.
(** buffer/mod.rs:43-49 *)
Definition bf_from_slice (cfg : bufcfg) (bs : list N) : res buf :=
  let! b := bf_with_capacity cfg (nlen bs) in bf_extend bs b.
(** buffer/mod.rs:57-61, 72-74; little_endian/mod.rs:73-87: a vector with contents
    [bs] and [spare] more octets of capacity. *)
Definition bf_from_vec (cfg : bufcfg) (bs spare : list N) : buf :=
  if nlen (bs ++ spare) =? 0 then bf_new cfg
  else {| b_mem := bs ++ spare; b_len := nlen bs; b_heap := true |}.
(** buffer/mod.rs:123-125 *)
Definition bf_into_vec (b : buf) : list N := bf_slice b.
(** little_endian/mod.rs:50-56, universal_endian/mod.rs:150-156 *)
Definition bf_clone (cfg : bufcfg) (b : buf) : res buf := bf_from_slice cfg (bf_slice b).
(** buffer/mod.rs:201-206, Write::write *)
Definition bf_io_write (cfg : bufcfg) (bs : list N) (b : buf) : res buf :=
  let! b1 := bf_reserve cfg (nlen bs) b in bf_extend bs b1.
