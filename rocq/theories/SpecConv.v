(** Chains of conversions, and what indices select. *)
From Verif Require Import Base ModelError ModelTag ModelContents ModelBuf ModelTlv ModelConv BufProofs.

Inductive sort := SId | SContents | SDer | SBer.
(** A slice (or array, or string slice), a vector (or String) with spare octets, a borrowed value, an owned value, a buffer. *)
Inductive value := VSlice (bs : list N) | VVec (bs spare : list N) | VRef (s : sort) (bs : list N) | VOwn (s : sort) (b : buf) | VBuffer (b : buf).
(** The octets of a value; owned ones are in a buffer that may have room for more. *)
Definition shows (v : value) (bs : list N) : Prop :=
  match v with
  | VSlice x | VRef _ x => x = bs
  | VVec x spare => x = bs /\ bytes_ok spare
  | VOwn _ b | VBuffer b => holds b bs
  end.

(** One conversion by a function of the library. *)
Inductive converts (cfg : bufcfg) : value -> res value -> Prop :=
| cv_der_ref bs : converts cfg (VSlice bs) (Ok (VRef SDer (DerRef_from_bytes_unchecked bs)))
| cv_der_mut bs : converts cfg (VSlice bs) (Ok (VRef SDer (DerRef_from_mut_bytes_unchecked bs)))
| cv_ber_ref bs : converts cfg (VSlice bs) (Ok (VRef SBer (BerRef_from_bytes_unchecked bs)))
| cv_ber_mut bs : converts cfg (VSlice bs) (Ok (VRef SBer (BerRef_from_mut_bytes_unchecked bs)))
| cv_id_ref bs : converts cfg (VSlice bs) (Ok (VRef SId (IdRef_from_bytes_unchecked bs)))
| cv_id_mut bs : converts cfg (VSlice bs) (Ok (VRef SId (IdRef_from_mut_bytes_unchecked bs)))
| cv_contents_ref bs : converts cfg (VSlice bs) (Ok (VRef SContents (ContentsRef_from_slice bs)))
| cv_contents_mut bs : converts cfg (VSlice bs) (Ok (VRef SContents (ContentsRef_from_mut_slice bs)))
| cv_contents_array bs : converts cfg (VSlice bs) (Ok (VRef SContents (ContentsRef_from_array bs)))
| cv_contents_mut_array bs : converts cfg (VSlice bs) (Ok (VRef SContents (ContentsRef_from_mut_array bs)))
| cv_contents_str bs : converts cfg (VSlice bs) (Ok (VRef SContents (ContentsRef_from_str bs)))
| cv_ber_of_der bs : converts cfg (VRef SDer bs) (Ok (VRef SBer (BerRef_from_DerRef bs)))
| cv_der_slice bs : converts cfg (VRef SDer bs) (Ok (VSlice (DerRef_as_ref bs)))
| cv_ber_slice bs : converts cfg (VRef SBer bs) (Ok (VSlice (BerRef_as_ref bs)))
| cv_contents_slice bs : converts cfg (VRef SContents bs) (Ok (VSlice (ContentsRef_as_ref bs)))
| cv_id_slice bs : converts cfg (VRef SId bs) (Ok (VSlice (IdRef_as_ref bs)))
| cv_der_buffer b : converts cfg (VBuffer b) (Ok (VOwn SDer (Der_from_Buffer b)))
| cv_ber_buffer b : converts cfg (VBuffer b) (Ok (VOwn SBer (Ber_from_Buffer b)))
| cv_contents_buffer b : converts cfg (VBuffer b) (Ok (VOwn SContents (Contents_from_Buffer b)))
| cv_id_buffer b : converts cfg (VBuffer b) (Ok (VOwn SId (Id_from_Buffer b)))
| cv_disassemble b : converts cfg (VOwn SDer b) (Ok (VBuffer (disassemble_der b)))
| cv_der_bytes bs : converts cfg (VSlice bs) (rmap (VOwn SDer) (Der_from_bytes_unchecked cfg bs))
| cv_ber_bytes bs : converts cfg (VSlice bs) (rmap (VOwn SBer) (Ber_from_bytes_unchecked cfg bs))
| cv_id_bytes bs : converts cfg (VSlice bs) (rmap (VOwn SId) (Id_from_bytes_unchecked cfg bs))
| cv_der_vec bs spare : converts cfg (VVec bs spare) (Ok (VOwn SDer (Der_from_vec_unchecked cfg bs spare)))
| cv_ber_vec bs spare : converts cfg (VVec bs spare) (Ok (VOwn SBer (Ber_from_vec_unchecked cfg bs spare)))
(** what room the vector has is not said *)
| cv_der_into b spare : bytes_ok spare -> converts cfg (VOwn SDer b) (Ok (VVec (Der_into_vec b) spare))
| cv_ber_into b spare : bytes_ok spare -> converts cfg (VOwn SBer b) (Ok (VVec (Ber_into_vec b) spare))
| cv_id_from_ref bs : converts cfg (VRef SId bs) (rmap (VOwn SId) (Id_from_IdRef cfg bs))
| cv_contents_from_ref bs : converts cfg (VRef SContents bs) (rmap (VOwn SContents) (Contents_from_ContentsRef cfg bs))
| cv_contents_from_slice bs : converts cfg (VSlice bs) (rmap (VOwn SContents) (Contents_from_slice cfg bs))
| cv_contents_from_array bs : converts cfg (VSlice bs) (rmap (VOwn SContents) (Contents_from_array cfg bs))
| cv_contents_from_str bs : converts cfg (VSlice bs) (rmap (VOwn SContents) (Contents_from_str cfg bs))
| cv_contents_from_vec bs spare : converts cfg (VVec bs spare) (Ok (VOwn SContents (Contents_from_vec cfg bs spare)))
| cv_contents_from_string bs spare : converts cfg (VVec bs spare) (Ok (VOwn SContents (Contents_from_string cfg bs spare)))
| cv_der_owned bs : converts cfg (VRef SDer bs) (rmap (VOwn SDer) (DerRef_to_owned cfg bs))
| cv_ber_owned bs : converts cfg (VRef SBer bs) (rmap (VOwn SBer) (BerRef_to_owned cfg bs))
| cv_contents_owned bs : converts cfg (VRef SContents bs) (rmap (VOwn SContents) (ContentsRef_to_owned cfg bs))
| cv_id_owned bs : converts cfg (VRef SId bs) (rmap (VOwn SId) (IdRef_to_owned cfg bs))
| cv_der_from_ref bs : converts cfg (VRef SDer bs) (rmap (VOwn SDer) (Der_from_DerRef cfg bs))
| cv_ber_from_der_ref bs : converts cfg (VRef SDer bs) (rmap (VOwn SBer) (Ber_from_DerRef cfg bs))
| cv_ber_from_der b : converts cfg (VOwn SDer b) (Ok (VOwn SBer (Ber_from_Der b)))
| cv_ber_from_ref bs : converts cfg (VRef SBer bs) (rmap (VOwn SBer) (Ber_from_BerRef cfg bs))
| cv_der_deref b : converts cfg (VOwn SDer b) (Ok (VRef SDer (Der_deref b)))
| cv_ber_deref b : converts cfg (VOwn SBer b) (Ok (VRef SBer (Ber_deref b)))
| cv_contents_deref b : converts cfg (VOwn SContents b) (Ok (VRef SContents (Contents_deref b)))
| cv_id_deref b : converts cfg (VOwn SId b) (Ok (VRef SId (Id_deref b)))
| cv_der_as_ref b : converts cfg (VOwn SDer b) (Ok (VSlice (Der_as_ref b)))
| cv_ber_as_ref b : converts cfg (VOwn SBer b) (Ok (VSlice (Ber_as_ref b)))
| cv_contents_as_ref b : converts cfg (VOwn SContents b) (Ok (VSlice (Contents_as_ref b)))
| cv_id_as_ref b : converts cfg (VOwn SId b) (Ok (VSlice (Id_as_ref b)))
| cv_der_as_der b : converts cfg (VOwn SDer b) (Ok (VRef SDer (Der_as_DerRef b)))
| cv_ber_as_ber b : converts cfg (VOwn SBer b) (Ok (VRef SBer (Ber_as_BerRef b)))
| cv_contents_as_contents b : converts cfg (VOwn SContents b) (Ok (VRef SContents (Contents_as_ContentsRef b)))
| cv_id_as_id b : converts cfg (VOwn SId b) (Ok (VRef SId (Id_as_IdRef b))).
(** Any number of them, one after the other. *)
Inductive chain (cfg : bufcfg) : value -> value -> Prop :=
| chain_none v : chain cfg v v
| chain_step v r v' v'' : converts cfg v r -> r = Ok v' -> chain cfg v' v'' -> chain cfg v v''.

(** The positions that an index stands for, among [len]; [None]: the index is out of range. *)
Definition in_range_index (len : N) (i : slice_index) : Prop :=
  match i with
  | At n => n < len
  | Range a b => a <= b <= len
  | RangeFrom a => a <= len
  | RangeTo b => b <= len
  | RangeFull => True
  | RangeInclusive a b => a <= b + 1 <= len
  | RangeToInclusive b => b + 1 <= len
  end.
Definition selected (len : N) (i : slice_index) (k : N) : Prop :=
  match i with
  | At n => k = n
  | Range a b => a <= k < b
  | RangeFrom a => a <= k < len
  | RangeTo b => k < b
  | RangeFull => k < len
  | RangeInclusive a b => a <= k <= b
  | RangeToInclusive b => k <= b
  end.
Definition first_selected (i : slice_index) : N :=
  match i with At n => n | Range a _ | RangeFrom a | RangeInclusive a _ => a | _ => 0 end.
Definition octet (bs : list N) (k : N) : option N := nth_error bs (N.to_nat k).
