(** Views and calls of the aliasing models beside buffers in raw memory and steps of programs on them. *)
From Verif Require Import Base ModelBuf ModelHeap ModelBufLE ModelBufUE SpecBuf ModelBorrow.

(** What a layout tells of a buffer is what the view tells. *)
Definition seen (L : layout) (inline : L_raw L -> bool) (r : L_raw L) (w : view) : Prop :=
  v_inline w = inline r /\ v_len w = L_len L r /\ v_cap w = L_capacity L r.
(** The calls on the buffer in variable [i] that a program makes in its steps. *)
Inductive made (i : nat) : bop -> bcall -> Prop :=
| made_push x : made i (OPush i x) CPush
| made_extend bs : made i (OExtend i bs) (CExtend (nlen bs))
| made_reserve k : made i (OReserve i k) (CReserve k)
| made_set_len n : made i (OSetLen i n) (CSetLen n)
| made_clone j : made i (OClone i j) CClone.
