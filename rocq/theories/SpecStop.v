(** What a failing stream parser has taken of the stream (C93). *)
From Verif Require Import Base ModelIo ModelTag.

(** The errors of a stream that ended or failed. *)
Definition short (e : error) : bool := match e with UnterminatedBytes | Io _ => true | _ => false end.
(** [p] was taken and the error is [e]: [p] is refused whatever comes next; or the stream
    ended or failed, and [p] is too short. *)
Definition stopped {A} (parse : list N -> res A * list N) (p : list N) (e : error) : Prop :=
  if short e then fst (parse p) = Err UnterminatedBytes else forall t, parse (p ++ t) = (Err e, t).
