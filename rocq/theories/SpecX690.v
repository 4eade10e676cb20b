(** The whole grammar of X.690 8.1, down to primitive values: contents of a constructed
    value are values themselves, and only constructed values may have indefinite length. *)
From Verif Require Import Base Spec.

(** [L]: the length octets that are allowed; [indef]: whether 8.1.3.6 is. *)
Inductive x690_value (L : N -> list N -> Prop) (indef : bool) : list N -> Prop :=
| xv_primitive cls num id len c : identifier cls 0 num id -> hd 0 id <> 0 -> L (nlen c) len -> bytes_ok c ->
    x690_value L indef (id ++ len ++ c)
| xv_constructed cls num id len c : identifier cls 1 num id -> L (nlen c) len -> x690_values L indef c ->
    x690_value L indef (id ++ len ++ c)
| xv_indefinite cls num id c : indef = true -> identifier cls 1 num id -> x690_values L indef c ->
    x690_value L indef (id ++ [0x80] ++ c ++ [0; 0])
with x690_values (L : N -> list N -> Prop) (indef : bool) : list N -> Prop :=
| xvs_nil : x690_values L indef []
| xvs_cons v c : x690_value L indef v -> x690_values L indef c -> x690_values L indef (v ++ c).
(** BER, 8.1.3.3-8.1.3.6 *)
Definition x690_ber : list N -> Prop := x690_value x690_length true.
(** BER with the lengths of 10.1, but possibly indefinite *)
Definition x690_short_ber : list N -> Prop := x690_value minimal_length true.
(** DER, 10.1 *)
Definition x690_der : list N -> Prop := x690_value minimal_length false.
