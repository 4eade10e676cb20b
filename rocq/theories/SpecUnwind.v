(** What must be left in memory when a function that calls code of the user returns or panics. *)
From Verif Require Import Base ModelIo ModelHeap ModelUnwind SpecBuf.

(** The memory in use is the same, octet by octet. *)
Definition untouched (h0 h : heap) : Prop := forall a, h_get a h = h_get a h0.
(** [b] is a value with octets [bs], the only thing in memory that was not there before; dropping
    it frees what it took. *)
Definition new_value (L : layout) (h0 : heap) (b : L_raw L) (bs : list N) (h : heap) : Prop :=
  L_slice L b h = Done bs h /\
  (forall a c, h_get a h0 = Some c -> h_get a h = Some c) /\
  exists h', L_drop L b h = Done tt h' /\ untouched h0 h'.
(** The reader writes octets. *)
Definition writes_octets {S} (R : user_reader S) : Prop :=
  forall s n, bytes_ok (fst (fst (u_read R s n))) /\ bytes_ok (fst (fst (u_read_exact R s n))).
(** However the function ends, a value is returned or the memory is as before. *)
Definition cleans_up (L : layout) (al : allocator) (h0 : heap) {S} (x : ends S (L_raw L)) : Prop :=
  match x with
  | Ends (Ok b) _ h => exists bs, bytes_ok bs /\ new_value L h0 b bs h
  | Ends _ _ h => untouched h0 h
  | EAbort => out_of_memory al
  | EOversize => True
  | EUB => False
  end.
(** It ends as the parser on octets, and the memory is clean. *)
Definition ends_as (L : layout) (al : allocator) (h0 : heap) {S} (p : res (list N) * S) (x : ends S (L_raw L)) : Prop :=
  match x with
  | Ends r s h =>
      s = snd p /\
      match fst p, r with
      | Ok v, Ok b => new_value L h0 b v h
      | Err e, Err e' => e' = e /\ untouched h0 h
      | Panic, Panic => untouched h0 h
      | NoFuel, NoFuel => untouched h0 h
      | _, _ => False
      end
  | EAbort => out_of_memory al
  | EOversize => fst p = Panic
  | EUB => False
  end.
