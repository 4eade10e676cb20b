(** The calls of [Read::read] that a parser makes. *)
From Verif Require Import Base ModelIo.

(** A call: how many octets it asks for, and the answer. *)
Definition call : Type := N * io_res.
(** The reader [R] with a list of the calls so far, oldest first. *)
Definition watched {S} (R : reader S) : reader (S * list call) :=
  {| rd_read := fun x n => let (a, s') := rd_read R (fst x) n in (a, (s', snd x ++ [(n, a)])) |}.
Definition data (c : call) : list N := match snd c with IoOk bs => bs | IoErr _ => [] end.
(** Octets delivered. *)
Definition got (l : list call) : N := nlen (concat (map data l)).
(** The call delivers octets, or is to be tried again. *)
Definition useful (retry : bool) (c : call) : Prop :=
  match snd c with IoOk bs => bs <> [] | IoErr k => retry = true /\ k = Interrupted end.
Definition interrupted (c : call) : bool := match snd c with IoErr Interrupted => true | _ => false end.
(** Every call is made while octets of [v] are missing, and asks for some of these. *)
Definition while_missing (v : list N) (l : list call) : Prop :=
  forall pre c post, l = pre ++ c :: post -> got pre < nlen v /\ 1 <= fst c /\ got pre + fst c <= nlen v.
