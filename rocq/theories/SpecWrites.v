(** The calls of [Write::write] that serialisation makes. *)
From Verif Require Import Base ModelError ModelIo ModelTag ModelContents ModelBuf ModelTlv ModelSerde.

(** A call: what is offered, and the answer. *)
Definition offer : Type := list N * wres.
(** The writer [W] with a list of the calls so far, oldest first. *)
Definition listed {S} (W : writer S) : writer (S * list offer) :=
  {| wr_write := fun x bs => let (a, s') := wr_write W (fst x) bs in (a, (s', snd x ++ [(bs, a)])); wr_fuel := wr_fuel W |}.
(** The octets that the writer says it took. *)
Definition took (c : offer) : list N := match snd c with WrOk n => take n (fst c) | _ => [] end.
Definition taken (l : list offer) : list N := concat (map took l).
(** It took some, no more than there were, or is to be asked again. *)
Definition goes_on (c : offer) : Prop :=
  match snd c with WrOk n => 1 <= n <= nlen (fst c) | WrErr k => k = Interrupted | WrPanic => False end.
Definition asked_again (c : offer) : bool := match snd c with WrErr Interrupted => true | _ => false end.
(** Every call offers octets, those of [bs] after the ones that were taken, and comes after calls that went well. *)
Definition in_turn (bs : list N) (l : list offer) : Prop :=
  forall pre c post, l = pre ++ c :: post -> fst c <> [] /\ (exists q, bs = taken pre ++ fst c ++ q) /\ Forall goes_on pre.
