(** Safe code that makes a Der or a Ber of any octets, [Der::from(Buffer::from(bytes))], and then
    edits it. *)
From Verif Require Import Base ModelIo ModelTag ModelContents ModelBuf ModelTlv ModelHeap ModelTlvRaw ModelRelease SpecTlv SpecLoose.

Section RUN.
Context (L : layout) (al : allocator).
(** der.rs:349-351, 375-429, 463-492, ber.rs:561-563, 601-623, 668-684, and mut_contents (der_ref.rs:333-335,
    ber_ref.rs:334-336) *)
Definition edit_raw (y : tlv_ty) (e : edit) (b : L_raw L) : M (L_raw L) :=
  match e with
  | Extend w => match y with TyDer => raw_Der_extend L al w b | TyBer => raw_Ber_extend L al w b end
  | Truncate n => match y with TyDer => raw_Der_truncate L n b | TyBer => raw_Ber_truncate L n b end
  | Write f => raw_edit L f b
  end.
(** The same in the release profile. *)
Definition edit_rel (y : tlv_ty) (e : edit) (b : L_raw L) : M (L_raw L) :=
  match e with
  | Extend w => match y with TyDer => rel_Der_extend L al w b | TyBer => rel_Ber_extend L al w b end
  | Truncate n => match y with TyDer => rel_Der_truncate L n b | TyBer => rel_Ber_truncate L n b end
  | Write f => raw_edit L f b
  end.
Fixpoint edits (step : edit -> L_raw L -> M (L_raw L)) (es : list edit) (b : L_raw L) : M (L_raw L) :=
  match es with [] => mret b | e :: es' => (b' <-- step e b ; edits step es' b') end.
(** From<&[u8]> for Buffer, buffer/mod.rs:43-49; From<Buffer>, der.rs:496-500 and ber.rs:688-692, hands it on. *)
Definition made_of (step : edit -> L_raw L -> M (L_raw L)) (bs : list N) (es : list edit) : M (L_raw L) :=
  b <-- L_from_slice L al bs ; edits step es b.
End RUN.
