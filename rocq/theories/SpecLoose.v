(** Octets read without any check, and the room they claim. *)
From Verif Require Import Base Spec.

(** One octet; or, if its low five bits are set, up to the first one below 128. *)
Inductive loose_id : list N -> Prop :=
| li_short b : b mod 32 <> 31 -> loose_id [b]
| li_long b more last : b mod 32 = 31 -> Forall (fun x => 128 <= x) more -> last < 128 -> loose_id (b :: more ++ [last]).
(** Length octets of any form; None is the indefinite one.  Of a number that does not fit into 64 bits
    the low ones are taken. *)
Inductive loose_length : list N -> option N -> Prop :=
| lo_short n : n < 128 -> loose_length [n] (Some n)
| lo_indefinite : loose_length [128] None
| lo_long ds : ds <> [] -> nlen ds <= 127 -> loose_length (128 + nlen ds :: ds) (Some (be_value ds mod 2 ^ 64)).
Definition reads_as (bs id : list N) (n : option N) : Prop :=
  exists len rest, bs = id ++ len ++ rest /\ loose_id id /\ loose_length len n.
(** The octets of a value with this identifier and a contents of [n] octets. *)
Definition claims (bs : list N) (total : N) : Prop :=
  exists id n len, reads_as bs id (Some n) /\ minimal_length n len /\ total = nlen id + nlen len + n.
(** It claims to be longer than it is. *)
Definition overruns (bs : list N) : Prop := exists total, claims bs total /\ nlen bs < total.

(** Editing a value: extend_from_slice, truncate, and writing to the contents. *)
Inductive edit := Extend (w : list N) | Truncate (n : N) | Write (f : list N -> list N).
Definition edit_ok (e : edit) : Prop :=
  match e with Extend w => bytes_ok w | Truncate n => n < usize_limit | Write f => forall c, bytes_ok c -> bytes_ok (f c) end.
(** How much longer a value gets at most. *)
Definition more (e : edit) : N := match e with Extend w => nlen w + 8 | _ => 0 end.
Fixpoint most (es : list edit) (n : N) : N := match es with [] => n | e :: es' => most es' (n + more e) end.
