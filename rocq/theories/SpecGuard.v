(** The rules of protectors, as relations. *)
From Verif Require Import Base ModelBorrow SpecBorrow.

(** Protected references are those that functions have as arguments that have not returned. *)
Definition protects (call : N) (open : list nat) (t : tag) : Prop := exists j, In j open /\ t = stamp call j.
(** Stacked Borrows: items of protected references stay as they are. *)
Definition stay (call : N) (open : list nat) (s s' : list item) : Prop :=
  forall t p, In (t, p) s -> protects call open t -> p <> Disabled -> In (t, p) s'.
(** Tree Borrows: a read and a write through another reference, while this one is protected; there is no step for what is not allowed. *)
Inductive other_protected : bool -> state -> state -> Prop :=
| prot_alias w : other_protected w Alias Alias
| prot_dead w : other_protected w Dead Dead
| prot_read_frozen : other_protected false Frozen Frozen
| prot_read_reserved : other_protected false Reserved Frozen.
Definition accessed_protected (prot : tag -> bool) (w : bool) (nodes : list node) (t : tag) (n n' : node) : Prop :=
  fst n' = fst n /\
  (comes_from nodes t (fst (fst n)) -> own w (snd n) (snd n')) /\
  (~ comes_from nodes t (fst (fst n)) -> if prot (fst (fst n)) then other_protected w (snd n) (snd n') else other w (snd n) (snd n')).

(** Functions return in the opposite order of their calls, and the last one at the end; [open]: those that have not returned. *)
Fixpoint nested (es : list event) (open : list nat) : Prop :=
  match es with
  | [] => open = []
  | Enter t :: es' => nested es' (t :: open)
  | Leave t :: es' => match open with x :: open' => x = t /\ nested es' open' | [] => False end
  | _ :: es' => nested es' open
  end.
(** A reference to all of the structure of the buffer is the argument of a function. *)
Fixpoint arguments (es : list event) : Prop :=
  match es with
  | [] => True
  | Retag k obj _ child _ n :: es' =>
      (obj = 0 -> n = 24 -> k = KMut \/ k = KShr -> match es' with Enter t :: _ => t = child | _ => False end) /\ arguments es'
  | _ :: es' => arguments es'
  end.
