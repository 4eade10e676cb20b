(** Programs that read values from streams and edit identifiers in place, beside the steps of SpecTlv.v. *)
From Verif Require Import Base ModelIo ModelTag ModelBuf ModelTlv ModelHeap ModelTlvRaw Spec SpecIo SpecBuf SpecTlv IdProofs.

(** IdRef::set_class and IdRef::set_pc. *)
Inductive id_edit := SetClass (k : class_tag) | SetPc (k : pc_tag).
(** What they make of an identifier. *)
Definition edited (k : id_edit) (id id' : list N) : Prop :=
  exists cls pc n, identifier cls pc n id /\
    match k with SetClass c => identifier (class_num c) pc n id' | SetPc p => identifier cls (pc_num p) n id' end.

Inductive wop : Type :=
| WStep (o : vop)
| WParse (y : tlv_ty) (i : nat) (S : Type) (R : reader S) (fuel : nat) (s : S) (t : tvar)
    (** var i = Der::parse(&mut reader).ok() / Ber::parse; it is t, empty after an error *)
| WSetId (i : nat) (k : id_edit) (id' : list N)  (** var i .mut_id().set_class / set_pc; the identifier becomes id' *).

Definition with_id (id' : list N) (t : tvar) : tvar :=
  match t with TDer _ c => TDer id' c | TBer b _ c => TBer b id' c | _ => t end.
Definition wstep (o : wop) (e : env tvar) : env tvar :=
  match o with
  | WStep o => vstep o e
  | WParse _ i _ _ _ _ t => upd i t e
  | WSetId i _ id' => upd i (with_id id' (e i)) e
  end.
(** What the parser returns on octets (C13, C15, C22, C23). *)
Definition stream_value (y : tlv_ty) {S} (R : reader S) (fuel : nat) (s : S) : res (list N) :=
  match y with TyDer => fst (Der_parse R fuel s) | TyBer => fst (Ber_parse R fuel s) end.
(** The reader is honest, the loops of the parser end, and no length is announced that no allocation
    can have (C45, C52). *)
Definition wlegal (o : wop) (e : env tvar) : Prop :=
  match o with
  | WStep o => legal o e
  | WParse y i _ R fuel s t =>
      e i = TEmpty /\
      (exists content, honest R content /\ bytes_ok (content s) /\ nlen (content s) <= isize_max) /\
      match stream_value y R fuel s with Ok bs => has_ty y t /\ encodes t bs | Err _ => t = TEmpty | Panic | NoFuel => False end
  | WSetId i k id' => match e i with TDer id _ | TBer _ id _ => edited k id id' | _ => False end
  end.
Fixpoint wsteps (os : list wop) (e : env tvar) : env tvar :=
  match os with [] => e | o :: os' => wsteps os' (wstep o e) end.
Fixpoint all_wlegal (os : list wop) (e : env tvar) : Prop :=
  match os with [] => True | o :: os' => wlegal o e /\ all_wlegal os' (wstep o e) end.
(** What a reader writes are octets, in every state of it. *)
Definition octet_reader {S} (R : reader S) : Prop := forall s n, match fst (rd_read R s n) with IoOk bs => bytes_ok bs | IoErr _ => True end.
Fixpoint octet_readers (os : list wop) : Prop :=
  match os with
  | [] => True
  | WParse _ _ _ R _ _ _ :: os' => octet_reader R /\ octet_readers os'
  | _ :: os' => octet_readers os'
  end.
