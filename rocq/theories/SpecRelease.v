(** Two ends of the same function, one in each profile. *)
From Verif Require Import Base ModelIo ModelHeap ModelUnwind SpecBuf SpecUnwind.

(** The same result, the reader in the same state, the same octets in memory. *)
Definition agree {S A} (x y : ends S A) : Prop :=
  match x, y with
  | Ends r s h, Ends r' s' h' => r' = r /\ s' = s /\ untouched h h'
  | EAbort, EAbort => True
  | EOversize, EOversize => True
  | _, _ => False
  end.
