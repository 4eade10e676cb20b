(** Where decoding stops and what error it gives; which declarations derive takes. *)
From Coq Require Import String Ascii.
From Verif Require Import Base ModelError ModelIo ModelTag ModelContents ModelBuf ModelTlv ModelSerde Spec SpecIo SpecSerde.
From Verif Require Import ModelAttr ModelDerive SpecAttr SpecDerive SpecColl.
Open Scope N_scope.

(** ** One value *)
Definition der_is_value (b : list N) : Prop := exists id c, der_tlv id c b.
(** In front of the octets [c] is no value; or there is one which does not decode; or
    what it decodes to cannot be converted.  Each error gets its context. *)
Definition stops (no_value : list N -> error -> Prop) (is_value : list N -> Prop) {U T} (decode : list N -> res U)
  (g : U -> T + anyhow) (n_value n_decode n_convert : N) (c : list N) (e : error) : Prop :=
  (exists e0, no_value c e0 /\ e = Error_context n_value e0) \/
  (exists b rest, c = b ++ rest /\ is_value b /\
     ((exists e0, decode b = Err e0 /\ e = Error_context n_decode e0) \/
      (exists u err, decode b = Ok u /\ g u = inr err /\ e = Error_context n_convert (Anyhow err)))).

(** ** Collections: the first element that is not decoded; contexts end in its index. *)
Definition items_stop {X} (item : list N -> X -> Prop) (stop : N -> list N -> error -> Prop) (c : list N) (e : error) : Prop :=
  exists bs xs bad, c = concat bs ++ bad /\ bad <> [] /\ Forall2 item bs xs /\ stop (nlen bs) bad e.
Definition der_stops {T} (D : deserialize T) (i : N) : list N -> error -> Prop :=
  stops der_error der_is_value (serde_from_der D) (@inl T anyhow) (ctx 0 i) (ctx 1 i) 0.
Definition ber_stops {T} (D : deserialize T) (i : N) : list N -> error -> Prop :=
  stops ber_error ber_value (serde_from_ber D) (@inl T anyhow) (ctx 2 i) (ctx 3 i) 0.
(** An entry: no value; not a SEQUENCE; in it no first value, or no second, or something
    after it; a key or a value that does not decode.  [pair b p]: the entry [b] is a
    SEQUENCE with contents [p]. *)
Definition entry_stops (no_value : list N -> error -> Prop) (is_value : list N -> Prop) (pair : list N -> list N -> Prop)
  {K V} (key : list N -> res K) (val : list N -> res V) (no_pair no_key no_val no_key_decode no_val_decode i : N) (c : list N) (e : error) : Prop :=
  (exists e0, no_value c e0 /\ e = Error_context (ctx no_pair i) e0) \/
  (exists b rest, c = b ++ rest /\ is_value b /\ (forall p, ~ pair b p) /\ e = Error_context (ctx 5 i) InvalidKeyValuePair) \/
  (exists b rest p, c = b ++ rest /\ is_value b /\ pair b p /\
     ((exists e0, no_value p e0 /\ e = Error_context (ctx no_key i) e0) \/
      (exists kb q, p = kb ++ q /\ is_value kb /\
         ((exists e0, no_value q e0 /\ e = Error_context (ctx no_val i) e0) \/
          (exists vb x, q = vb ++ x /\ is_value vb /\ x <> [] /\ e = Error_context (ctx 10 i) InvalidKeyValuePair) \/
          (is_value q /\
             ((exists e0, key kb = Err e0 /\ e = Error_context (ctx no_key_decode i) e0) \/
              (exists k e0, key kb = Ok k /\ val q = Err e0 /\ e = Error_context (ctx no_val_decode i) e0))))))).
Definition der_entry_stops {K V} (DK : deserialize K) (DV : deserialize V) : N -> list N -> error -> Prop :=
  entry_stops der_error der_is_value (fun b p => der_tlv [0x30] p b) (serde_from_der DK) (serde_from_der DV) 4 6 7 8 9.
Definition ber_entry_stops {K V} (DK : deserialize K) (DV : deserialize V) : N -> list N -> error -> Prop :=
  entry_stops ber_error ber_value (fun b p => exists l, ((l = Definite (nlen p) /\ nlen p < usize_limit) \/ l = Indefinite) /\ b = [0x30] ++ length_of l ++ p)
    (serde_from_ber DK) (serde_from_ber DV) 11 12 13 14 15.

(** ** Structs: the first field that is not decoded, or octets after the last *)
(** What a field is decoded as, and how that is converted. *)
Definition source_of {T} (f : field T) : try_source T :=
  let ps := n_paths (f_names f) in
  match a_from (f_attr f), a_try_from (f_attr f) with
  | Some ty, _ => {| ts_ty := sr_ty (p_from ps ty); ts_conv := fun u => inl (sr_conv (p_from ps ty) u); ts_de := sr_de (p_from ps ty) |}
  | None, Some ty => p_try_from ps ty
  | None, None => {| ts_ty := T; ts_conv := fun t => inl t; ts_de := n_de (f_names f) |}
  end.
Definition der_field_stops {T} (f : field T) : list N -> error -> Prop :=
  let s := source_of f in let n := n_field (f_names f) in
  stops der_error der_is_value (serde_from_der (ts_de s)) (ts_conv s) (field_ctx 2 n) (field_ctx 3 n) (field_ctx 4 n).
Definition ber_field_stops {T} (f : field T) : list N -> error -> Prop :=
  let s := source_of f in let n := n_field (f_names f) in
  stops ber_error ber_value (serde_from_ber (ts_de s)) (ts_conv s) (field_ctx 0 n) (field_ctx 1 n) (field_ctx 4 n).
Fixpoint fields_stop (item : forall T, field T -> list N -> T -> Prop) (stop : forall T, field T -> list N -> error -> Prop) (Ts : list Type)
  : hlist field Ts -> list N -> error -> Prop :=
  match Ts with
  | [] => fun _ c e => c <> [] /\ e = ExtraContentsOctet
  | T :: Ts' => fun fs c e =>
      (skips_de (f_attr (fst fs)) /\ fields_stop item stop Ts' (snd fs) c e) \/
      (~ skips_de (f_attr (fst fs)) /\
         (stop T (fst fs) c e \/
          exists b rest x, c = b ++ rest /\ item T (fst fs) b x /\ fields_stop item stop Ts' (snd fs) rest e))
  end.
Definition der_fields_stop : forall Ts, hlist field Ts -> list N -> error -> Prop :=
  fields_stop (fun T f => der_item (field_de f)) (@der_field_stops).
Definition ber_fields_stop : forall Ts, hlist field Ts -> list N -> error -> Prop :=
  fields_stop (fun T f => ber_item (field_de f)) (@ber_field_stops).
(** Contents with an indefinite length end in end-of-contents octets. *)
Definition indefinite_stop (stop : list N -> error -> Prop) (c : list N) (e : error) : Prop :=
  ((forall bs, c <> bs ++ [0; 0]) /\ e = UnterminatedBytes) \/ (exists bs, c = bs ++ [0; 0] /\ stop bs e).
Definition length_stop (stop : list N -> error -> Prop) (l : Length) : list N -> error -> Prop :=
  match l with Definite _ => stop | Indefinite => indefinite_stop stop end.
(** Of a transparent struct: [read T D] is the outcome for the whole value. *)
Fixpoint whole_stop (read : forall U, deserialize U -> res U) (no_decode : N) (Ts : list Type) : hlist field Ts -> error -> Prop :=
  match Ts with
  | [] => fun _ _ => False
  | T :: Ts' => fun fs e =>
      let s := source_of (fst fs) in let n := n_field (f_names (fst fs)) in
      (skips_de (f_attr (fst fs)) /\ whole_stop read no_decode Ts' (snd fs) e) \/
      (~ skips_de (f_attr (fst fs)) /\
         ((exists e0, read _ (ts_de s) = Err e0 /\ e = Error_context (field_ctx no_decode n) e0) \/
          (exists u err, read _ (ts_de s) = Ok u /\ ts_conv s u = inr err /\ e = Error_context (field_ctx 4 n) (Anyhow err)) \/
          (exists u t, read _ (ts_de s) = Ok u /\ ts_conv s u = inl t /\ whole_stop read no_decode Ts' (snd fs) e)))
  end.
(** Of an enum: no variant has the identifier, or the first that has it does not read. *)
Fixpoint variant_stops (stop : forall Ts, hlist field Ts -> error -> Prop) (id : list N) (Tss : list (list Type))
  : vlist data_container Tss -> error -> Prop :=
  match Tss with
  | [] => fun _ e => e = UnmatchedId
  | Ts :: Tss' => fun vs e =>
      let here := let a := dc_attr (fst vs) in identifier (class_of a) (pc_of a) (number_of a) id in
      (here /\ stop Ts (dc_fields (fst vs)) e) \/ (~ here /\ variant_stops stop id Tss' (snd vs) e)
  end.

(** ** Declarations derive takes *)
Section Taken.
Context (is_path : string -> bool).
(** The attribute may stand at [p]. *)
Definition fits (p : position) (a : attribute) : Prop := (forall x, has a x -> allowed p x) /\ compatible a.
Definition attribute_ok (p : position) (attrs : list syn_attribute) : Prop :=
  exists a, Attribute_try_from is_path attrs = Some a /\ fits p a.
Fixpoint fields_ok (Ts : list Type) : hlist field_decl Ts -> Prop :=
  match Ts with
  | [] => fun _ => True
  | T :: Ts' => fun fs => attribute_ok PField (fd_attrs (fst fs)) /\ fields_ok Ts' (snd fs)
  end.
(** [n] fields are not skipped. *)
Fixpoint kept (skips : attribute -> Prop) (Ts : list Type) : hlist field_decl Ts -> nat -> Prop :=
  match Ts with
  | [] => fun _ n => n = O
  | T :: Ts' => fun fs n => exists a, Attribute_try_from is_path (fd_attrs (fst fs)) = Some a /\
      ((skips a /\ kept skips Ts' (snd fs) n) \/ (~ skips a /\ exists m, n = S m /\ kept skips Ts' (snd fs) m))
  end.
Fixpoint variants_ok (Tss : list (list Type)) : vlist variant_decl Tss -> Prop :=
  match Tss with
  | [] => fun _ => True
  | Ts :: Tss' => fun vs =>
      attribute_ok PVariant (vd_attrs (fst vs)) /\ fields_ok Ts (vd_fields (fst vs)) /\ variants_ok Tss' (snd vs)
  end.
(** [skips]: what is skipped; [c1] and [c2]: the two conversions, with which nothing
    else is looked at. *)
Definition taken (skips : attribute -> Prop) (c1 c2 : arg) (attrs : list syn_attribute) (d : data) : Prop :=
  exists a, Attribute_try_from is_path attrs = Some a /\ fits PContainer a /\
    (has a c1 \/ has a c2 \/
     match d with
     | DStruct Ts fs => fits PStruct a /\ fields_ok Ts fs /\ (has a ATransparent -> kept skips Ts fs 1)
     | DEnum Tss vs => fits PEnum a /\ variants_ok Tss vs
     | DUnion _ => False
     end).
End Taken.
