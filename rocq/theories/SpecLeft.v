(** What a failing parser leaves of a slice (C14). *)
From Verif Require Import Base ModelIo ModelTag.

(** [p] was taken and [rest] left with the error [e]: either [p] is refused whatever comes
    next, or it needs more octets than [rest] has. *)
Definition stuck (parse : list N -> res (list N) * list N) (p : list N) (e : error) (rest : list N) : Prop :=
  (e <> UnterminatedBytes /\ forall t, parse (p ++ t) = (Err e, t)) \/
  (e = UnterminatedBytes /\ exists n, nlen rest < n /\ forall t, nlen t < n -> parse (p ++ t) = (Err e, t)).
