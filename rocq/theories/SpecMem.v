(** How much memory is asked for. *)
From Verif Require Import Base ModelHeap Spec.

(** Two allocators that differ at most in what they do with requests of more than [k] octets.
    A computation that comes out the same with both never asks for more. *)
Definition agree_upto (k : N) (al al' : allocator) : Prop :=
  al_junk al = al_junk al' /\ forall h n, n <= k -> al_pick al h n = al_pick al' h n.
(** An allocator that refuses to hand out more than [k] octets at once. *)
Definition capped (k : N) (al : allocator) : allocator :=
  {| al_pick := fun h n => if n <=? k then al_pick al h n else None; al_junk := al_junk al |}.
(** The first [i] octets of [bs] end in a header, which starts after [p] and announces [n]
    octets. *)
Inductive header_at (bs : list N) : list N -> N -> N -> Prop :=
| ha_intro p id len q n : bs = p ++ id ++ len ++ q -> is_identifier id -> minimal_length n len -> header_at bs p (nlen (p ++ id ++ len)) n.
