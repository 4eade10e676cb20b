(** Deserialisation on a machine whose usize has [w] octets against deserialisation on 64 bits. *)
From Coq Require Import String Ascii.
From Verif Require Import Base ModelError ModelIo ModelTag ModelContents ModelTlv ModelSerde ModelAttr ModelDerive ModelWord.
From Verif Require Import Spec.

(** The same error; or, where octets are missing, that a length is too large for the machine; in the same contexts. *)
Inductive error_alike : error -> error -> Prop :=
| el_same e : error_alike e e
| el_large : error_alike UnterminatedBytes OverFlow
| el_context c e e' : error_alike e e' -> error_alike (Error_context c e) (Error_context c e').
(** The same outcome, up to such errors. *)
Definition alike {A} (r r' : res A) : Prop := r' = r \/ exists e e', r = Err e /\ r' = Err e' /\ error_alike e e'.
(** [D'] does on contents of at most isize::MAX octets what [D] does. *)
Definition agrees (w : N) {T} (D D' : deserialize T) : Prop :=
  forall id l c, bytes_ok c -> nlen c <= 2 ^ (8 * w - 1) - 1 ->
    alike (from_der D id c) (from_der D' id c) /\ alike (from_ber D id l c) (from_ber D' id l c).

(** The types named by [from] and [try_from]: the same type and conversion, implementations that agree. *)
Inductive source_agrees (w : N) {T} : source T -> source T -> Prop :=
| sa_intro U conv D D' : agrees w D D' ->
    source_agrees w {| sr_ty := U; sr_conv := conv; sr_de := D |} {| sr_ty := U; sr_conv := conv; sr_de := D' |}.
Inductive try_source_agrees (w : N) {T} : try_source T -> try_source T -> Prop :=
| ta_intro U conv D D' : agrees w D D' ->
    try_source_agrees w {| ts_ty := U; ts_conv := conv; ts_de := D |} {| ts_ty := U; ts_conv := conv; ts_de := D' |}.
(** A field: the same attribute, name and default; what it is read with agrees. *)
Record field_agrees (w : N) {T} (f f' : field T) : Prop := {
  fa_attr : f_attr f' = f_attr f;
  fa_name : n_field (f_names f') = n_field (f_names f);
  fa_default : forall p, n_default (f_names f') p = n_default (f_names f) p;
  fa_de : is_skip_deserializing (f_attr f) = true \/
    match a_from (f_attr f) with
    | Some ty => source_agrees w (p_from (n_paths (f_names f)) ty) (p_from (n_paths (f_names f')) ty)
    | None =>
        match a_try_from (f_attr f) with
        | Some ty => try_source_agrees w (p_try_from (n_paths (f_names f)) ty) (p_try_from (n_paths (f_names f')) ty)
        | None => agrees w (n_de (f_names f)) (n_de (f_names f'))
        end
    end }.
Fixpoint fields_agree (w : N) (Ts : list Type) : hlist field Ts -> hlist field Ts -> Prop :=
  match Ts with
  | [] => fun _ _ => True
  | T :: Ts' => fun fs fs' => field_agrees w (fst fs) (fst fs') /\ fields_agree w Ts' (snd fs) (snd fs')
  end.
Fixpoint variants_agree (w : N) (Tss : list (list Type)) : vlist data_container Tss -> vlist data_container Tss -> Prop :=
  match Tss with
  | [] => fun _ _ => True
  | Ts :: Tss' => fun vs vs' =>
      dc_attr (fst vs') = dc_attr (fst vs) /\ fields_agree w Ts (dc_fields (fst vs)) (dc_fields (fst vs')) /\
      variants_agree w Tss' (snd vs) (snd vs')
  end.
