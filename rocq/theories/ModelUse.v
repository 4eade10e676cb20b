(** Reading values from streams and editing identifiers in place, as steps of programs on raw memory. *)
From Verif Require Import Base ModelIo ModelTag ModelBuf ModelTlv ModelHeap ModelTlvRaw ModelUnwind ModelRelease SpecBuf SpecTlv SpecUse.

Section RAW.
Context (L : layout) (al : allocator).
Notation raw := (L_raw L).

(** bsn1/src/identifier_ref.rs:617-622, 642-648 (set_class, set_pc) *)
Definition edit_of (k : id_edit) : list N -> res (list N) :=
  match k with SetClass c => IdRef_set_class c | SetPc p => IdRef_set_pc p end.
(** mut_id, bsn1/src/der_ref.rs:274-276, ber_ref.rs:276-278, then the edit: the identifier is a window on the octets, and
    what does not fit into it cannot be written. *)
Definition raw_edit_id (f : list N -> res (list N)) (b : raw) : M raw :=
  bs <-- L_slice L b ;
  id <-- mlift (tlv_id bs) ;
  id' <-- mlift (f id) ;
  if nlen id' =? nlen id then L_store L 0 id' b else mcrash.
(** Der::parse (bsn1/src/der.rs:169-198) or Ber::parse (bsn1/src/ber.rs:303-344), the contents of the former with one
    call of an honest reader. *)
Definition raw_parse (y : tlv_ty) {S} (R : reader S) (fuel : nat) (s : S) : M (res raw * S) :=
  match y with
  | TyDer => raw_Der_parse L al R (fun s n => let (x, s') := rd_read R s n in (claim_of x, s')) fuel s
  | TyBer => raw_Ber_parse L al R fuel s
  end.
(** One step: [let x = Der::parse(&mut readable)] (an error is dropped), [x.mut_id().set_class(..)] and the like, or one of C51. *)
Definition wraw (o : wop) (v : env (var raw)) : M (env (var raw)) :=
  match o with
  | WStep o => vraw L al o v
  | WParse y i _ R fuel s _ =>
      x <-- raw_parse y R fuel s ;
      match fst x with
      | Ok r => mret (upd i (VBuf r) v)
      | Err _ => mret (upd i VEmpty v)
      | Panic | NoFuel => mub
      end
  | WSetId i k _ =>
      match v i with
      | VBuf b => b' <-- raw_edit_id (edit_of k) b ; mret (upd i (VBuf b') v)
      | _ => mub
      end
  end.
(** The steps in turn. *)
Fixpoint wraws (os : list wop) (v : env (var raw)) : M (env (var raw)) :=
  match os with [] => mret v | o :: os' => (v' <-- wraw o v ; wraws os' v') end.

(** ** The release profile *)
(** Der::parse and Ber::parse as in ModelRelease.v; a panic ends the program. *)
Definition rel_parse (y : tlv_ty) {S} (R : reader S) (fuel : nat) (s : S) : M (res raw * S) := fun h =>
  match (match y with TyDer => rel_Der_parse L al (user_of R fuel) fuel s h | TyBer => rel_Ber_parse L al (user_of R fuel) fuel s h end) with
  | Ends Panic _ _ => Crash
  | Ends r s' h' => Done (r, s') h'
  | EAbort => Abort
  | EOversize => Crash
  | EUB => UB
  end.
(** Editing an identifier computes with single octets only (identifier_ref.rs:617-648). *)
Definition rel_wraw (o : wop) (v : env (var raw)) : M (env (var raw)) :=
  match o with
  | WStep o => rel_vraw L al o v
  | WParse y i _ R fuel s _ =>
      x <-- rel_parse y R fuel s ;
      match fst x with
      | Ok r => mret (upd i (VBuf r) v)
      | Err _ => mret (upd i VEmpty v)
      | Panic | NoFuel => mub
      end
  | WSetId i k _ =>
      match v i with
      | VBuf b => b' <-- raw_edit_id (edit_of k) b ; mret (upd i (VBuf b') v)
      | _ => mub
      end
  end.
(** The steps in turn. *)
Fixpoint rel_wraws (os : list wop) (v : env (var raw)) : M (env (var raw)) :=
  match os with [] => mret v | o :: os' => (v' <-- rel_wraw o v ; rel_wraws os' v') end.
End RAW.
