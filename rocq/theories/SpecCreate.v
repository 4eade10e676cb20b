(** What creating a value may do. *)
From Verif Require Import Base ModelHeap SpecBuf SpecUnwind.

(** Panics exactly if the value would take more than isize::MAX octets; otherwise a new value of
    the octets wanted, unless memory is exhausted. *)
Definition creates (L : layout) (al : allocator) (h0 : heap) (o : outcome (L_raw L)) (wanted : list N -> Prop) (size : N) : Prop :=
  (o = Crash <-> isize_max < size) /\
  match o with
  | Done b h => exists bs, wanted bs /\ new_value L h0 b bs h
  | Abort => out_of_memory al
  | Crash => True
  | UB => False
  end.
