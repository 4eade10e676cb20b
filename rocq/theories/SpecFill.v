(** Readers that write what they report. *)
From Verif Require Import Base ModelIo ModelHeap ModelUnwind SpecBuf SpecUnwind.

(** [read] has written the octets it reports; [read_exact] has filled the buffer. *)
Definition fills {S} (R : user_reader S) : Prop :=
  forall s n,
    (forall got k s', u_read R s n = (got, Returns k, s') -> N.min k n <= nlen got) /\
    (forall got k s', u_read_exact R s n = (got, Returns k, s') -> n <= nlen got).
(** A run ends with [r], a value having the octets [r] says, and the reader in state [s]; or has no memory. *)
Definition settled (L : layout) (al : allocator) {S} (r : res (list N)) (s : S) (x : ends S (L_raw L)) : Prop :=
  match x with
  | Ends r' s' h => s' = s /\
      match r, r' with
      | Ok bs, Ok b => L_slice L b h = Done bs h
      | Err e, Err e' => e' = e
      | Panic, Panic => True
      | NoFuel, NoFuel => True
      | _, _ => False
      end
  | EAbort => out_of_memory al
  | EOversize => r = Panic
  | EUB => False
  end.
