(** Values read from a reader that may do anything. *)
From Verif Require Import Base ModelTag ModelHeap ModelTlvRaw ModelUnwind Spec SpecBuf SpecUnwind.

(** A parser returns a value with [P], or fails and leaves the memory as it was. *)
Definition reads (L : layout) (al : allocator) (h0 : heap) {S} (P : list N -> Prop) (x : ends S (L_raw L)) : Prop :=
  match x with
  | Ends (Ok b) _ h => exists bs, P bs /\ bytes_ok bs /\ new_value L h0 b bs h
  | Ends _ _ h => untouched h0 h
  | EAbort => out_of_memory al
  | EOversize => True
  | EUB => False
  end.
Definition der_value (bs : list N) : Prop := exists id c, der_tlv id c bs.
(** Parts of a value that belong together: a definite length is that of the contents, as the
    documentation of [Deserialize::from_ber] asks of its callers (bsn1_serde/src/de/mod.rs:27-34);
    an indefinite one comes with items and their end. *)
Inductive good_parts (bs id : list N) : Length -> list N -> Prop :=
| gp_definite c : der_tlv id c bs -> good_parts bs id (Definite (nlen c)) c
| gp_indefinite items : bs = id ++ [0x80] ++ items ++ [0; 0] -> is_identifier id -> ber_items items -> good_parts bs id Indefinite (items ++ [0; 0]).
Definition fails_like {A T} (r : res A) (r' : res T) : Prop :=
  match r, r' with Err e, Err e' => e' = e | Panic, Panic => True | NoFuel, NoFuel => True | _, _ => False end.
(** The parser ended as [x]: reading a value of octets [bs] ends as [f] says, or fails as the
    parser did.  In either case the memory is as before and nothing more is read. *)
Definition decodes (L : layout) (al : allocator) (h0 : heap) {S T} (f : list N -> res T -> Prop) (x : ends S (L_raw L)) (y : ends S T) : Prop :=
  match x, y with
  | Ends r s h, Ends r' s' h' => s' = s /\ untouched h0 h' /\
      match r with Ok b => exists bs, L_slice L b h = Done bs h /\ bytes_ok bs /\ f bs r' | _ => fails_like r r' end
  | EAbort, EAbort => out_of_memory al
  | EOversize, EOversize => True
  | _, _ => False
  end.
(** It ends as [p], and the memory is as before. *)
Definition reads_as (al : allocator) (h0 : heap) {S T} (failed : Prop) (p : res T * S) (y : ends S T) : Prop :=
  match y with
  | Ends r s h => (r, s) = p /\ untouched h0 h
  | EAbort => out_of_memory al
  | EOversize => failed
  | EUB => False
  end.
