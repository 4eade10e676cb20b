(** [read_ber] and [read_der] on raw memory, with any reader and any Deserialize. *)
From Verif Require Import Base ModelIo ModelTag ModelContents ModelBuf ModelTlv ModelHeap ModelTlvRaw ModelUnwind ModelRelease ModelSerde.

Section READ.
Context (L : layout) {S T : Type}.
(** bsn1_serde/src/lib.rs:182-183 and 197-198: the value is a local.  [de] borrows its octets and returns or panics, then it is dropped. *)
Definition u_finish (de : list N -> res T) (x : ends S (L_raw L)) : ends S T :=
  match x with
  | Ends (Ok b) s h =>
      match L_slice L b h with
      | Done bs _ => match L_drop L b h with Done _ h' => Ends (de bs) s h' | Abort => EAbort | _ => EUB end
      | Abort => EAbort
      | _ => EUB
      end
  | Ends (Err e) s h => Ends (Err e) s h
  | Ends Panic s h => Ends Panic s h
  | Ends NoFuel s h => Ends NoFuel s h
  | EAbort => EAbort | EOversize => EOversize | EUB => EUB
  end.
Context (al : allocator) (D : deserialize T) (R : user_reader S).
(** bsn1_serde/src/lib.rs:177-184 *)
Definition u_read_ber (fuel : nat) (s : S) (h : heap) : ends S T := u_finish (serde_from_ber D) (u_Ber_parse L al R fuel s h).
(** bsn1_serde/src/lib.rs:192-199 *)
Definition u_read_der (fuel : nat) (s : S) (h : heap) : ends S T := u_finish (serde_from_der D) (u_Der_parse L al R fuel s h).
(** The same in the release profile, where [L] is the layout of that. *)
Definition rel_read_ber (fuel : nat) (s : S) (h : heap) : ends S T := u_finish (serde_from_ber D) (rel_Ber_parse L al R fuel s h).
Definition rel_read_der (fuel : nat) (s : S) (h : heap) : ends S T := u_finish (serde_from_der D) (rel_Der_parse L al R fuel s h).
End READ.
