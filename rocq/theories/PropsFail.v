(** C64: which declarations derive takes; C65: the errors of decoding. *)
From Coq Require Import String Ascii.
From Verif Require Import Base ModelError ModelIo ModelTag ModelContents ModelBuf ModelTlv ModelSerde ModelAttr ModelDerive.
From Verif Require Import Spec SpecIo SpecSerde SpecAttr SpecDerive SpecColl SpecFail.
From Verif Require Import TagProofs IdProofs TagMain ContentsProofs TlvProofs BufProofs TlvMain StreamProofs StreamMain.
From Verif Require Import SerdeOctets SerdeSer SerdeDe SerdeMain SerdeEntry AttrProofs AttrParse DeriveProofs DeriveMain PropsDerive.
From Verif Require Import CollProofs FailProofs.
Open Scope N_scope.

(** ** C64 *)
(** [derive(Serialize)] succeeds on exactly these declarations, *)
Theorem C64_serialize : forall is_path E attrs d ps,
  do_serialize is_path E attrs d ps <> None <-> taken is_path skips_ser AInto ATo attrs d.
Proof. exact serialize_taken. Qed.
Print Assumptions C64_serialize.
(** and [derive(Deserialize)] on these. *)
Theorem C64_deserialize : forall is_path E attrs d ps,
  do_deserialize is_path E attrs d ps <> None <-> taken is_path skips_de AFrom ATryFrom attrs d.
Proof. exact deserialize_taken. Qed.
Print Assumptions C64_deserialize.
Definition no_paths (T : Type) : paths T :=
  same_paths {| write_id := fun _ _ _ => wret tt; write_der_contents := fun _ _ _ => wret tt; id_len := fun _ => Ok None; der_contents_len := fun _ => Ok None |}
    {| from_ber := fun _ _ _ => Panic; from_der := fun _ _ => Panic |}.
Definition bad_field : list syn_attribute := [Some (arg_num "tag_num" "3")%list].
Example C64_ex : let E := ex_env true in
  taken any_path skips_ser AInto ATo (tagged "5") (DStruct Point (point_decls E)) /\
  taken any_path skips_de AFrom ATryFrom [] (DEnum Shape (shape_decls E)) /\
  taken any_path skips_de AFrom ATryFrom transparent_ (DStruct Wrap (wrap_decls E)) /\
  (** a transparent struct with two fields, a tag on a field, a union *)
  ~ taken any_path skips_de AFrom ATryFrom transparent_ (DStruct Wrap (bool_field E [] true 1, (int_field E [] 0%Z 2, tt))) /\
  ~ taken any_path skips_ser AInto ATo [] (DStruct One (int_field E bad_field 0%Z 1, tt)) /\
  ~ taken any_path skips_ser AInto ATo [] (DUnion Z) /\
  (** a field skipped on one side *)
  ~ taken any_path skips_ser AInto ATo transparent_ (DStruct One (int_field E skip_ser 0%Z 1, tt)) /\
  taken any_path skips_de AFrom ATryFrom transparent_ (DStruct One (int_field E skip_ser 0%Z 1, tt)).
Proof.
  cbv zeta. set (E := ex_env true).
  pose proof (fun attrs d => C64_serialize any_path E attrs d (no_paths _)) as TS.
  pose proof (fun attrs d => C64_deserialize any_path E attrs d (no_paths _)) as TD.
  repeat apply conj.
  - apply TS. rewrite (proj1 (point_derives E (no_paths _))). discriminate.
  - apply TD. rewrite (proj2 (shape_derives E (no_paths _))). discriminate.
  - apply TD. discriminate.
  - intros H. apply TD in H. apply H. reflexivity.
  - intros H. apply TS in H. apply H. reflexivity.
  - intros H. apply TS in H. apply H. reflexivity.
  - intros H. apply TS in H. apply H. reflexivity.
  - apply TD. discriminate.
Qed.

(** ** C65 *)
(** The context of an error in a collection tells the message and the index. *)
Theorem C65_context : forall m i m' i', m < 16 -> m' < 16 -> (ctx m i = ctx m' i' <-> m = m' /\ i = i').
Proof. intros m i m' i' H H'. unfold ctx. lia. Qed.
Print Assumptions C65_context.
Example C65_context_ex : ctx 3 0 <> ctx 3 1 /\ ctx 3 1 <> ctx 2 1.
Proof. split; discriminate. Qed.
(** Booleans, integers, strings and octet strings: the identifier first, then the
    contents (C09, C11). *)
Theorem C65_primitives : forall E,
  (forall id c e, bytes_ok c ->
    (from_der (de_bool E) id c = Err e <-> (id <> [1] /\ e = UnmatchedId) \/ (id = [1] /\
       ((c = [] /\ e = UnterminatedBytes) \/ (1 < nlen c /\ e = ExtraContentsOctet) \/
        (exists o, c = [o] /\ o <> 0 /\ o <> 255 /\ e = InvalidDerBooleanContents)))) /\
    (from_ber (de_bool E) id (Definite (nlen c)) c = Err e <-> (id <> [1] /\ e = UnmatchedId) \/ (id = [1] /\
       ((c = [] /\ e = UnterminatedBytes) \/ (1 < nlen c /\ e = ExtraContentsOctet))))) /\
  (forall t id c e, bytes_ok c ->
    let P := (id <> [2] /\ e = UnmatchedId) \/ (id = [2] /\
       ((c = [] /\ e = UnterminatedBytes) \/ (c <> [] /\ ~ shortest_twos c /\ e = RedundantBytes) \/
        (shortest_twos c /\ ~ in_range t (twos_value c) /\ e = OverFlow))) in
    (from_der (de_int E t) id c = Err e <-> P) /\ (from_ber (de_int E t) id (Definite (nlen c)) c = Err e <-> P)) /\
  (forall id c e, bytes_ok c ->
    (from_der (de_string E) id c = Err e <-> (id <> [12] /\ e = UnmatchedId) \/ (id = [12] /\ ~ is_utf8 c /\ e = InvalidUtf8)) /\
    (from_ber (de_string E) id (Definite (nlen c)) c = Err e <->
       (id <> [12] /\ id <> [44] /\ e = UnmatchedId) \/ ((id = [12] \/ id = [44]) /\ ~ is_utf8 c /\ e = InvalidUtf8))) /\
  (forall id l c e,
    (from_der de_octets id c = Err e <-> id <> [4] /\ e = UnmatchedId) /\
    (from_ber de_octets id l c = Err e <-> (id <> [4] /\ id <> [36] /\ e = UnmatchedId) \/ ((id = [4] \/ id = [36]) /\ l = Indefinite /\ e = IndefiniteLength))).
Proof.
  exact primitives_err.
Qed.
Print Assumptions C65_primitives.
Example C65_primitives_ex : let E := ex_env true in
  serde_from_der (de_bool E) [1; 1; 7] = Err InvalidDerBooleanContents /\ serde_from_ber (de_int E I8) [2; 2; 0; 0x80] = Err OverFlow /\
  serde_from_der (de_string E) [12; 1; 0x80] = Err InvalidUtf8 /\ serde_from_ber de_octets [4; 0x80; 0; 0] = Err IndefiniteLength.
Proof. repeat split; vm_compute; reflexivity. Qed.

(** Sequences and sets: the first element that is not decoded. *)
Theorem C65_elements : forall E T (D : deserialize T) cmp eqb,
  let seq ID (DC : deserialize (list T)) :=
    (forall id c e, bytes_ok c -> (from_der DC id c = Err e <->
       (id <> ID /\ e = UnmatchedId) \/ (id = ID /\ items_stop (der_item D) (der_stops D) c e))) /\
    (forall id l c e, bytes_ok c -> right_length l c -> (from_ber DC id l c = Err e <->
       (id <> ID /\ e = UnmatchedId) \/ (id = ID /\ length_stop (items_stop (ber_item D) (ber_stops D)) l c e))) in
  seq [0x30] (de_vec E D) /\ seq [0x30] (de_linked_list E D) /\ seq [0x30] (de_vec_deque E D) /\
  seq [0x30] (de_btree_set E cmp D) /\ seq [0x31] (de_hash_set E eqb D).
Proof. intros E T D cmp eqb seq. repeat apply conj; apply vals_err. Qed.
Print Assumptions C65_elements.
(** Maps: the first entry that is not decoded. *)
Theorem C65_entries : forall E K V (DK : deserialize K) (DV : deserialize V) cmp eqb,
  let map ID (DC : deserialize (list (K * V))) :=
    (forall id c e, bytes_ok c -> (from_der DC id c = Err e <->
       (id <> ID /\ e = UnmatchedId) \/ (id = ID /\ items_stop (der_entry DK DV) (der_entry_stops DK DV) c e))) /\
    (forall id l c e, bytes_ok c -> right_length l c -> (from_ber DC id l c = Err e <->
       (id <> ID /\ e = UnmatchedId) \/ (id = ID /\ length_stop (items_stop (ber_entry DK DV) (ber_entry_stops DK DV)) l c e))) in
  map [0x30] (de_btree_map E cmp DK DV) /\ map [0x31] (de_hash_map E eqb DK DV).
Proof. intros E K V DK DV cmp eqb map. repeat apply conj; apply entries_err. Qed.
Print Assumptions C65_entries.
Example C65_collections_ex : let E := ex_env true in
  (** the element at index 1 *)
  serde_from_der (de_vec E (de_int E I32)) [0x30; 6; 2; 1; 7; 1; 1; 0] = Err (Error_context (ctx 1 1) UnmatchedId) /\
  serde_from_ber (de_vec E (de_int E I32)) [0x30; 0x80; 2; 1; 7; 2; 0; 0; 0] = Err (Error_context (ctx 3 1) UnterminatedBytes) /\
  (** the value of the entry at index 0; a third element in it *)
  serde_from_der (de_btree_map E Z.compare (de_int E I32) (de_bool E)) [0x30; 8; 0x30; 6; 2; 1; 7; 1; 1; 9] = Err (Error_context (ctx 9 0) InvalidDerBooleanContents) /\
  serde_from_der (de_btree_map E Z.compare (de_int E I32) (de_bool E)) [0x30; 10; 0x30; 8; 2; 1; 7; 1; 1; 0; 5; 0] = Err (Error_context (ctx 10 0) InvalidKeyValuePair).
Proof. repeat split; vm_compute; reflexivity. Qed.

(** Structs: the first field that is not decoded, or octets after the last. *)
Theorem C65_struct : forall is_path E attrs a ID Ts decls fs ps D, Attribute_try_from is_path attrs = Some a ->
  plain a -> identifier (class_of a) (pc_of a) (number_of a) ID ->
  try_fields is_path Ts decls = Some fs -> do_deserialize is_path E attrs (DStruct Ts decls) ps = Some D ->
  (forall id c e, bytes_ok c -> (from_der D id c = Err e <-> (id <> ID /\ e = UnmatchedId) \/ (id = ID /\ der_fields_stop Ts fs c e))) /\
  (forall id l c e, bytes_ok c -> right_length l c ->
     (from_ber D id l c = Err e <-> (id <> ID /\ e = UnmatchedId) \/ (id = ID /\ length_stop (ber_fields_stop Ts fs) l c e))).
Proof. intros is_path E attrs a ID Ts decls fs ps D TF. now apply struct_err. Qed.
Print Assumptions C65_struct.
(** Transparent structs: the error of the field. *)
Theorem C65_transparent : forall is_path E attrs a Ts decls fs ps D, Attribute_try_from is_path attrs = Some a ->
  has a ATransparent -> try_fields is_path Ts decls = Some fs -> do_deserialize is_path E attrs (DStruct Ts decls) ps = Some D ->
  (forall id c e, from_der D id c = Err e <-> whole_stop (fun U D' => from_der D' id c) 3 Ts fs e) /\
  (forall id l c e, from_ber D id l c = Err e <-> whole_stop (fun U D' => from_ber D' id l c) 1 Ts fs e).
Proof. intros is_path E attrs a Ts decls fs ps D TF. now apply transparent_err. Qed.
Print Assumptions C65_transparent.
(** Enums: no variant, or the error of the variant. *)
Theorem C65_enum : forall is_path E attrs a Tss decls vs ps D, Attribute_try_from is_path attrs = Some a ->
  plain a -> try_variants is_path Tss decls = Some vs -> do_deserialize is_path E attrs (DEnum Tss decls) ps = Some D ->
  (forall id c e, bytes_ok c -> (from_der D id c = Err e <-> variant_stops (fun Ts fs => der_fields_stop Ts fs c) id Tss vs e)) /\
  (forall id l c e, bytes_ok c -> right_length l c ->
     (from_ber D id l c = Err e <-> variant_stops (fun Ts fs => length_stop (ber_fields_stop Ts fs) l c) id Tss vs e)).
Proof. intros is_path E attrs a Tss decls vs ps D TF. now apply enum_err. Qed.
Print Assumptions C65_enum.
(** Conversions of the container: the error of the other type, or of the conversion. *)
Theorem C65_conversions : forall is_path E attrs a d ps D, Attribute_try_from is_path attrs = Some a ->
  do_deserialize is_path E attrs d ps = Some D ->
  (forall ty, a_from a = Some ty -> let s := p_from ps ty in
    (forall id c e, from_der D id c = Err e <-> from_der (sr_de s) id c = Err e) /\
    (forall id l c e, from_ber D id l c = Err e <-> from_ber (sr_de s) id l c = Err e)) /\
  (forall ty, a_try_from a = Some ty -> let s := p_try_from ps ty in
    (forall id c e, from_der D id c = Err e <-> from_der (ts_de s) id c = Err e \/
       exists u err, from_der (ts_de s) id c = Ok u /\ ts_conv s u = inr err /\ e = Error_context (field_ctx 5 0) (Anyhow err)) /\
    (forall id l c e, from_ber D id l c = Err e <-> from_ber (ts_de s) id l c = Err e \/
       exists u err, from_ber (ts_de s) id l c = Ok u /\ ts_conv s u = inr err /\ e = Error_context (field_ctx 5 0) (Anyhow err))).
Proof.
  intros is_path E attrs a d ps D TF HD. split; intros ty H.
  - exact (from_err is_path E attrs a TF ty d ps D H HD).
  - assert (a_from a = None) as N.
    { pose proof (try_from_sanitized _ _ _ TF) as SN. apply sanitize_iff in SN. destruct (a_from a) as [ty'|] eqn:Q; [|reflexivity]. exfalso.
      assert (has a AFrom) as A by (apply has_flag; cbn [flag]; rewrite Q; reflexivity).
      assert (has a ATryFrom) as B by (apply has_flag; cbn [flag]; rewrite H; reflexivity).
      apply (SN _ _ A B). right. left. split; reflexivity. }
    exact (try_from_err is_path E attrs a TF ty d ps D N H HD).
Qed.
Print Assumptions C65_conversions.
(** [struct Even { #[bsn1_serde(try_from = "i32")] n: u32, seen: bool }] and a container of
    which no value converts. *)
Definition try_attrs : list syn_attribute := [Some (arg_num "try_from" (quoted "i32"))%list].
Definition even_paths (E : env) : paths Z :=
  {| p_into := fun _ => {| tg_ty := Z; tg_conv := fun t => t; tg_ser := ser_int I32 |};
     p_to := fun _ => {| tg_ty := Z; tg_conv := fun t => t; tg_ser := ser_int I32 |};
     p_from := fun _ => {| sr_ty := Z; sr_conv := fun t => t; sr_de := de_int E I32 |};
     p_try_from := fun _ => {| ts_ty := Z; ts_conv := fun t => if Z.even t then inl t else inr (AnForeign (FLeaf 77)); ts_de := de_int E I32 |} |}.
Definition Even : list Type := [Z : Type; bool : Type].
Definition even_decls (E : env) : hlist field_decl Even :=
  ({| fd_attrs := try_attrs; fd_names := {| n_ser := ser_int U32; n_de := de_int E U32; n_default := fun _ => 0%Z; n_paths := even_paths E; n_field := 6 |} |},
   (bool_field E [] true 2, tt)).
Example C65_derived_ex : let E := ex_env true in exists D, (forall ps, do_deserialize any_path E [] (DStruct Even (even_decls E)) ps = Some D) /\
  serde_from_der D [0x30; 6; 2; 1; 8; 1; 1; 0] = Ok (8%Z, (false, tt)) /\
  serde_from_der D [0x30; 6; 2; 1; 7; 1; 1; 0] = Err (Error_context (field_ctx 4 6) (Anyhow (AnForeign (FLeaf 77)))) /\
  serde_from_der D [0x30; 6; 2; 1; 8; 1; 1; 9] = Err (Error_context (field_ctx 3 2) InvalidDerBooleanContents) /\
  serde_from_ber D [0x30; 0x80; 2; 1; 8; 0; 0] = Err (Error_context (field_ctx 0 2) UnterminatedBytes) /\
  serde_from_ber D [0x30; 0x80; 2; 1; 7; 1; 1; 9; 0; 0] = Err (Error_context (field_ctx 4 6) (Anyhow (AnForeign (FLeaf 77)))) /\
  serde_from_der (shape_de E) [0x63; 0] = Err UnmatchedId /\
  serde_from_der (shape_de E) [0x61; 3; 1; 1; 0] = Err (Error_context (field_ctx 3 1) UnmatchedId).
Proof. cbv zeta. eexists. split; [reflexivity|]. repeat split; vm_compute; reflexivity. Qed.
