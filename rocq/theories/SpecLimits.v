(** Where in a BER stream a header stands, and what becomes of a length no allocation can
    hold. *)
From Verif Require Import Base ModelHeap Spec.

(** [p] begins a BER value and ends between elements, [d] indefinite-length values being open. *)
Inductive open_at : nat -> list N -> Prop :=
| oa_start : open_at 0 []
| oa_open d p id : open_at d p -> is_identifier id -> open_at (S d) (p ++ id ++ [0x80])
| oa_element d p id c bs : open_at (S d) p -> der_tlv id c bs -> bs <> [0; 0] -> open_at (S d) (p ++ bs)
| oa_close d p : open_at (S (S d)) p -> open_at (S d) (p ++ [0; 0]).

(** What happens when a buffer of [len] octets is to hold [n] more and [max] < len + n: a
    panic, except that a buffer beyond its inline storage [inl] passes the sum on to
    [realloc], whose contract it breaks, unless the sum does not even fit in a usize. *)
Definition beyond {A} (inl len n : N) : outcome A :=
  if (inl <? len) && (len + n <? 2 ^ 64) then UB else Crash.

(** The capacity of a new buffer that was asked to hold [n] octets. *)
Definition new_room (inl n : N) : N := N.max inl n.
