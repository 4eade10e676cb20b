(** C33 and C34: derived structs and enums; C24-C29, C36 and C43 for types with derived
    implementations. *)
From Coq Require Import String Ascii.
From Verif Require Import Base ModelError ModelIo ModelTag ModelContents ModelBuf ModelTlv ModelSerde ModelAttr ModelDerive.
From Verif Require Import Spec SpecIo SpecSerde SpecAttr SpecDerive.
From Verif Require Import TagProofs IdProofs TagMain ContentsProofs TlvProofs BufProofs TlvMain StreamProofs StreamMain.
From Verif Require Import SerdeOctets SerdeSer SerdeDe SerdeMain SerdeEntry AttrProofs AttrParse DeriveProofs DeriveMain.

(** ** Declarations for the examples *)
Definition ex_env (debug : bool) : env :=
  {| e_cfg := {| init_cap := 16; junk := fun i => 7 * i |}; e_debug := debug; e_place := fun _ x l => x :: l |}.
Lemma ex_good debug : good_env (ex_env debug).
Proof. intros A x l. apply Permutation.Permutation_refl. Qed.
Definition any_path (s : string) : bool := negb (String.eqb s "").
Definition same_paths {T} (s : serialize T) (d : deserialize T) : paths T :=
  {| p_into := fun _ => {| tg_ty := T; tg_conv := fun t => t; tg_ser := s |};
     p_to := fun _ => {| tg_ty := T; tg_conv := fun t => t; tg_ser := s |};
     p_from := fun _ => {| sr_ty := T; sr_conv := fun t => t; sr_de := d |};
     p_try_from := fun _ => {| ts_ty := T; ts_conv := fun t => inl t; ts_de := d |} |}.
Definition named {T} (s : serialize T) (d : deserialize T) (dflt : T) (i : N) : names T :=
  {| n_ser := s; n_de := d; n_default := fun _ => dflt; n_paths := same_paths s d; n_field := i |}.
(** An argument with a value, and [#[bsn1_serde(...)]]. *)
Definition arg (x y : string) : list token := [TIdent x; TPunct "="; TIdent y].
Definition arg_num (x y : string) : list token := [TIdent x; TPunct "="; TLiteral y].
Definition and_ : list token := [TPunct ","].
Definition tagged (n : string) : list syn_attribute := [Some (arg "tag_class" "APPLICATION" ++ and_ ++ arg_num "tag_num" n)%list].
Definition tagged_attr (n : N) : attribute :=
  {| a_id := None; a_tag_class := Some 0x40; a_tag_pc := None; a_tag_num := Some n;
     a_skip_serializing := false; a_skip_deserializing := false; a_default := None; a_skip := false;
     a_into := None; a_from := None; a_to := None; a_try_from := None; a_transparent := false |}.
(** A field of type i32, without attribute or with one. *)
Definition int_field (E : env) (attrs : list syn_attribute) (dflt : Z) (i : N) : field_decl Z :=
  {| fd_attrs := attrs; fd_names := named (ser_int I32) (de_int E I32) dflt i |}.
Definition bool_field (E : env) (attrs : list syn_attribute) (dflt : bool) (i : N) : field_decl bool :=
  {| fd_attrs := attrs; fd_names := named ser_bool (de_bool E) dflt i |}.
Definition skip : list syn_attribute := [Some [TIdent "skip"]]%string.
Definition skip_attr (both ser de : bool) : attribute :=
  {| a_id := None; a_tag_class := None; a_tag_pc := None; a_tag_num := None;
     a_skip_serializing := ser; a_skip_deserializing := de; a_default := None; a_skip := both;
     a_into := None; a_from := None; a_to := None; a_try_from := None; a_transparent := false |}.
Ltac flags := unfold skips_ser, skips_de, plain, unconverted; rewrite ?has_flag; cbn; intuition discriminate.
Ltac by_attribute H := eapply identifier_fun; [apply id_slice_identifier; eapply (try_from_values any_path); exact H | ].

(** [#[bsn1_serde(tag_class = APPLICATION, tag_num = 5)]
     struct Point { x: i32, #[bsn1_serde(skip)] seen: bool, y: i32 }] *)
Definition Point : list Type := [Z : Type; bool : Type; Z : Type].
Definition point_decls E : hlist field_decl Point := (int_field E [] 0%Z 1, (bool_field E skip true 2, (int_field E [] 0%Z 3, tt))).
Definition point_fields E : hlist field Point :=
  ({| f_attr := no_attribute; f_names := named (ser_int I32) (de_int E I32) 0%Z 1 |},
   ({| f_attr := skip_attr true false false; f_names := named ser_bool (de_bool E) true 2 |},
    ({| f_attr := no_attribute; f_names := named (ser_int I32) (de_int E I32) 0%Z 3 |}, tt))).
Definition point_specs : hlist field_spec Point := (Coded (of_codec (int_codec I32)), (Skipped true, (Coded (of_codec (int_codec I32)), tt))).
Definition point_codec : codec := struct_codec [0x65] Point point_specs.
Definition point_ser E : serialize (tuple Point) := ser_fields E {| dc_attr := tagged_attr 5; dc_fields := point_fields E |}.
Definition point_de E : deserialize (tuple Point) := de_struct E {| dc_attr := tagged_attr 5; dc_fields := point_fields E |}.
Lemma tagged_identified n : n < 31 -> identified (tagged_attr n) [0x60 + n].
Proof. intros H. split; [|cbn [hd]; lia]. now apply (id_short 1 1 n). Qed.
Lemma point_attributes : Attribute_try_from any_path (tagged "5") = Some (tagged_attr 5).
Proof. reflexivity. Qed.
Lemma point_tries E : try_fields any_path Point (point_decls E) = Some (point_fields E).
Proof. reflexivity. Qed.
Lemma point_plain n : plain (tagged_attr n).
Proof. flags. Qed.
Lemma point_derives E ps : do_serialize any_path E (tagged "5") (DStruct Point (point_decls E)) ps = Some (point_ser E) /\
  do_deserialize any_path E (tagged "5") (DStruct Point (point_decls E)) ps = Some (point_de E).
Proof. split; reflexivity. Qed.
Lemma point_supported_fields E : supported_fields E Point (point_fields E) point_specs.
Proof.
  apply sf_coded; [flags | flags | apply (sp_provided E (int_codec I32)); constructor|].
  apply (sf_skipped E bool [Z : Type]); [flags | flags|].
  apply sf_coded; [flags | flags | apply (sp_provided E (int_codec I32)); constructor | constructor].
Qed.
Lemma point_direct_fields E : direct_fields E false Point (point_fields E) point_specs.
Proof.
  apply df_coded; [flags | flags | flags | apply (dr_sequential E _ (int_codec I32)); constructor|].
  apply (df_skipped E false bool [Z : Type]); [flags | flags | flags|].
  apply df_coded; [flags | flags | flags | apply (dr_sequential E _ (int_codec I32)); constructor | constructor].
Qed.
Lemma point_direct E : direct E false point_codec (point_ser E) (point_de E).
Proof.
  eapply (dr_struct E false any_path (tagged "5") (tagged_attr 5) [0x65] Point (point_decls E) (point_fields E) point_specs (same_paths (point_ser E) (point_de E)));
    [apply point_attributes | apply point_plain | now apply (tagged_identified 5) | apply point_tries | apply point_direct_fields | |]; apply point_derives.
Qed.
Lemma point_supported E : supported E point_codec (point_ser E) (point_de E).
Proof.
  eapply (sp_struct E any_path (tagged "5") (tagged_attr 5) [0x65] Point (point_decls E) (point_fields E) point_specs (same_paths (point_ser E) (point_de E)));
    [apply point_attributes | apply point_plain | now apply (tagged_identified 5) | apply point_tries | apply point_supported_fields | |]; apply point_derives.
Qed.
Definition ex_point : tuple Point := (7, (false, (-300, tt)))%Z.
Definition ex_point_der : list N := [0x65; 7; 2; 1; 7; 2; 2; 0xfe; 0xd4].
Lemma ex_point_ok : wf point_codec ex_point /\ der_of point_codec ex_point = ex_point_der.
Proof. split; [repeat split; cbn; lia | vm_compute; reflexivity]. Qed.

(** [enum Shape { #[bsn1_serde(tag_class = APPLICATION, tag_num = 1)] Circle(i32),
                  #[bsn1_serde(tag_class = APPLICATION, tag_num = 2)] Boxed { at: Vec<Point>, filled: bool } }] *)
Definition Circle : list Type := [Z : Type].
Definition Boxed : list Type := [list (tuple Point) : Type; bool : Type].
Definition Shape : list (list Type) := [Circle; Boxed].
Definition points_names E := named (ser_vec E (point_ser E)) (de_vec E (point_de E)) [] 4.
Definition shape_decls E : vlist variant_decl Shape :=
  ({| vd_attrs := tagged "1"; vd_fields := (int_field E [] 0%Z 1, tt) : hlist field_decl Circle |},
   ({| vd_attrs := tagged "2"; vd_fields := ({| fd_attrs := []; fd_names := points_names E |}, (bool_field E [] true 2, tt)) : hlist field_decl Boxed |}, tt)).
Definition plain_field {T} (n : names T) : field T := {| f_attr := no_attribute; f_names := n |}.
Definition shape_variants E : vlist data_container Shape :=
  ({| dc_attr := tagged_attr 1; dc_fields := (plain_field (named (ser_int I32) (de_int E I32) 0%Z 1), tt) : hlist field Circle |},
   ({| dc_attr := tagged_attr 2; dc_fields := (plain_field (points_names E), (plain_field (named ser_bool (de_bool E) true 2), tt)) : hlist field Boxed |}, tt)).
Definition shape_specs : vlist variant_spec Shape :=
  (([0x61], (Coded (of_codec (int_codec I32)), tt)), (([0x62], (Coded (of_codec (seq_codec point_codec)), (Coded (of_codec bool_codec), tt))), tt)).
Definition shape_codec : codec := enum_codec Shape shape_specs.
Definition shape_ser E : serialize (choice Shape) := ser_variants E Shape (shape_variants E).
Definition shape_de E : deserialize (choice Shape) := de_enum E Shape (shape_variants E).
Lemma shape_tries E : try_variants any_path Shape (shape_decls E) = Some (shape_variants E).
Proof. reflexivity. Qed.
Lemma shape_derives E ps : do_serialize any_path E [] (DEnum Shape (shape_decls E)) ps = Some (shape_ser E) /\
  do_deserialize any_path E [] (DEnum Shape (shape_decls E)) ps = Some (shape_de E).
Proof. split; reflexivity. Qed.
Lemma shape_ids : NoDup (variant_ids Shape shape_specs).
Proof. repeat constructor; cbn; intuition discriminate. Qed.
Lemma no_plain : plain no_attribute.
Proof. flags. Qed.
Lemma shape_direct_variants E : direct_variants E false Shape (shape_variants E) shape_specs.
Proof.
  apply dv_cons; [now apply (tagged_identified 1) | |].
  { apply df_coded; [flags | flags | flags | apply (dr_sequential E _ (int_codec I32)); constructor | constructor]. }
  apply (dv_cons E false Boxed []); [now apply (tagged_identified 2) | | constructor].
  apply df_coded; [flags | flags | flags | apply (dr_vec E false point_codec), point_direct|].
  apply df_coded; [flags | flags | flags | apply (dr_sequential E _ bool_codec); constructor | constructor].
Qed.
Lemma shape_direct E : direct E false shape_codec (shape_ser E) (shape_de E).
Proof.
  eapply (dr_enum E false any_path [] no_attribute Shape (shape_decls E) (shape_variants E) shape_specs (same_paths (shape_ser E) (shape_de E)));
    [reflexivity | apply no_plain | apply shape_tries | apply shape_direct_variants | apply shape_ids | |]; apply shape_derives.
Qed.
Lemma shape_supported_variants E : good_env E -> supported_variants E Shape (shape_variants E) shape_specs.
Proof.
  intros HE. apply sv_cons; [now apply (tagged_identified 1) | |].
  { apply sf_coded; [flags | flags | apply (sp_provided E (int_codec I32)); constructor | constructor]. }
  apply (sv_cons E Boxed []); [now apply (tagged_identified 2) | | constructor].
  apply sf_coded; [flags | flags | apply (sp_vec E point_codec), point_supported|].
  apply sf_coded; [flags | flags | apply (sp_provided E bool_codec); constructor | constructor].
Qed.
Lemma shape_supported E : good_env E -> supported E shape_codec (shape_ser E) (shape_de E).
Proof. intros HE. apply (direct_all E false _ _ _ HE (shape_direct E)). Qed.
Definition ex_shape : choice Shape := inr (inl ([ex_point; ex_point], (false, tt))).
Definition ex_shape_der : list N := [0x62; 23; 0x30; 18] ++ ex_point_der ++ ex_point_der ++ [1; 1; 0].
Lemma ex_shape_ok : wf shape_codec ex_shape /\ der_of shape_codec ex_shape = ex_shape_der.
Proof. split; [repeat (constructor || cbn; try lia) | vm_compute; reflexivity]. Qed.

(** ** C33 *)
(** Decoding the encoding restores the encoded fields and gives the others their default. *)
Theorem C33_round_trip : forall E is_path attrs a ID Ts decls fs cs ps S D v, good_env E ->
  Attribute_try_from is_path attrs = Some a -> plain a -> identified a ID ->
  try_fields is_path Ts decls = Some fs -> supported_fields E Ts fs cs ->
  do_serialize is_path E attrs (DStruct Ts decls) ps = Some S -> do_deserialize is_path E attrs (DStruct Ts decls) ps = Some D ->
  fields_wf Ts cs v -> let bs := tlv ID (concat (fields_der Ts cs v)) in nlen bs <= isize_max ->
  (exists b, to_der E S v = Ok b /\ holds b bs) /\
  (exists v', serde_from_der D bs = Ok v' /\ fields_same Ts cs v v') /\
  (exists v', serde_from_ber D bs = Ok v' /\ fields_same Ts cs v v').
Proof.
  intros E is_path attrs a ID Ts decls fs cs ps S D v HE TF P I F SF HS HD W bs L.
  assert (laws E (struct_codec ID Ts cs) S D) as LW by (apply supported_laws; [assumption | now apply (sp_struct E is_path attrs a ID Ts decls fs cs ps)]).
  set (C := struct_codec ID Ts cs) in *. change bs with (der_of C v) in *. change (wf C v) in W. split; [|split].
  - destruct (der_fits C v L) as [L1 L2]. destruct (l_codec _ _ _ _ LW v W) as [J Hc].
    destruct (entry_points E S v (id_of C v) (contents_of C v) (l_ser _ _ _ _ LW v W L1) J (Hc L2) L) as (_ & (b & B1 & _ & B2) & _). eauto.
  - destruct (round_trip_der E C S D LW v W L) as (v' & W' & Sm & A & _). eauto.
  - destruct (round_trip_ber E C S D LW v (der_of C v) W (der_is_ber E C S D LW v W)) as (v' & W' & Sm & _ & A & _); [now apply isize_lt|]. eauto.
Qed.
Print Assumptions C33_round_trip.
Example C33_round_trip_ex : fields_wf Point point_specs ex_point /\ supported_fields (ex_env true) Point (point_fields (ex_env true)) point_specs /\
  (exists b, to_der (ex_env true) (point_ser (ex_env true)) ex_point = Ok b /\ bf_slice b = ex_point_der) /\
  serde_from_der (point_de (ex_env true)) ex_point_der = Ok (7, (true, (-300, tt)))%Z.
Proof. split; [apply ex_point_ok|]. split; [apply point_supported_fields|]. split; [eexists; split; vm_compute; reflexivity | vm_compute; reflexivity]. Qed.

(** What the decoders accept: the identifier, and one value for each field that is not
    skipped, with nothing after. *)
Theorem C33_accepts : forall is_path E attrs a ID Ts decls fs ps D, Attribute_try_from is_path attrs = Some a ->
  plain a -> identifier (class_of a) (pc_of a) (number_of a) ID ->
  try_fields is_path Ts decls = Some fs -> do_deserialize is_path E attrs (DStruct Ts decls) ps = Some D ->
  (forall id c v, bytes_ok c -> (from_der D id c = Ok v <-> id = ID /\ der_fields Ts fs c v)) /\
  (forall id c v, bytes_ok c -> (from_ber D id (Definite (nlen c)) c = Ok v <-> id = ID /\ ber_fields Ts fs c v)) /\
  (forall id c v, bytes_ok c -> (from_ber D id Indefinite c = Ok v <-> id = ID /\ exists bs, c = bs ++ [0; 0] /\ ber_fields Ts fs bs v)).
Proof. intros is_path E attrs a ID Ts decls fs ps D TF. now apply struct_accepts. Qed.
Print Assumptions C33_accepts.
Theorem C33_rejects : forall is_path E attrs a ID Ts decls fs ps D, Attribute_try_from is_path attrs = Some a ->
  plain a -> identifier (class_of a) (pc_of a) (number_of a) ID ->
  try_fields is_path Ts decls = Some fs -> do_deserialize is_path E attrs (DStruct Ts decls) ps = Some D ->
  (forall id l c, id <> ID -> from_der D id c = Err UnmatchedId /\ from_ber D id l c = Err UnmatchedId) /\
  (forall c x v, bytes_ok (c ++ x) -> x <> [] -> der_fields Ts fs c v -> from_der D ID (c ++ x) = Err ExtraContentsOctet) /\
  (forall c x v, bytes_ok (c ++ x) -> x <> [] -> ber_fields Ts fs c v ->
     from_ber D ID (Definite (nlen (c ++ x))) (c ++ x) = Err ExtraContentsOctet /\
     from_ber D ID Indefinite (c ++ x ++ [0; 0]) = Err ExtraContentsOctet).
Proof. intros is_path E attrs a ID Ts decls fs ps D TF. now apply struct_rejects. Qed.
Print Assumptions C33_rejects.
Example C33_rejects_ex : let D := point_de (ex_env true) in
  serde_from_der D [0x64; 7; 2; 1; 7; 2; 2; 0xfe; 0xd4] = Err UnmatchedId /\
  serde_from_der D [0x65; 8; 2; 1; 7; 2; 2; 0xfe; 0xd4; 9] = Err ExtraContentsOctet /\
  serde_from_der D [0x65; 3; 2; 1; 7] = Err (Error_context (field_ctx 2 3) UnterminatedBytes).
Proof. repeat split; vm_compute; reflexivity. Qed.
(** A transparent struct is decoded as its only field that is not skipped. *)
Theorem C33_transparent : forall is_path E attrs a Ts decls fs ps D, Attribute_try_from is_path attrs = Some a ->
  has a ATransparent -> try_fields is_path Ts decls = Some fs -> do_deserialize is_path E attrs (DStruct Ts decls) ps = Some D ->
  (forall id c v, from_der D id c = Ok v <-> whole_fields (fun T f t => from_der (field_de f) id c = Ok t) Ts fs v) /\
  (forall id l c v, from_ber D id l c = Ok v <-> whole_fields (fun T f t => from_ber (field_de f) id l c = Ok t) Ts fs v).
Proof. intros is_path E attrs a Ts decls fs ps D TF. now apply transparent_accepts. Qed.
Print Assumptions C33_transparent.
Definition transparent_ : list syn_attribute := [Some [TIdent "transparent"]]%string.
Definition Wrap : list Type := [bool : Type; Z : Type].
Definition wrap_decls E : hlist field_decl Wrap := (bool_field E skip true 1, (int_field E [] 0%Z 2, tt)).
Example C33_transparent_ex : let E := ex_env true in exists S D,
  (forall ps, do_serialize any_path E transparent_ (DStruct Wrap (wrap_decls E)) ps = Some S /\
              do_deserialize any_path E transparent_ (DStruct Wrap (wrap_decls E)) ps = Some D) /\
  (exists b, to_der E S (false, (5, tt))%Z = Ok b /\ bf_slice b = [2; 1; 5]) /\ serde_from_der D [2; 1; 5] = Ok (true, (5, tt))%Z /\
  (** two fields: a compile error *)
  forall ps, do_serialize any_path E transparent_ (DStruct Wrap (bool_field E [] true 1, (int_field E [] 0%Z 2, tt))) ps = None /\
             do_deserialize any_path E transparent_ (DStruct Wrap (bool_field E [] true 1, (int_field E [] 0%Z 2, tt))) ps = None.
Proof. cbv zeta. do 2 eexists. split; [split; reflexivity|]. split; [eexists; split; vm_compute; reflexivity|].
  split; [vm_compute; reflexivity | split; reflexivity].
Qed.
(** A conversion of the container: the implementations are those of the other type. *)
Theorem C33_conversions : forall is_path E attrs a d ps S D, Attribute_try_from is_path attrs = Some a ->
  do_serialize is_path E attrs d ps = Some S -> do_deserialize is_path E attrs d ps = Some D ->
  (forall ty, a_into a = Some ty -> ser_via (tg_conv (p_into ps ty)) (tg_ser (p_into ps ty)) S) /\
  (forall fn, a_to a = Some fn -> ser_via (tg_conv (p_to ps fn)) (tg_ser (p_to ps fn)) S) /\
  (forall ty, a_from a = Some ty -> de_via (sr_de (p_from ps ty)) (fun u => inl (sr_conv (p_from ps ty) u)) D) /\
  (forall ty, a_try_from a = Some ty -> de_via (ts_de (p_try_from ps ty)) (ts_conv (p_try_from ps ty)) D).
Proof.
  intros is_path E attrs a d ps S D TF HS HD. pose proof (try_from_sanitized _ _ _ TF) as SN. apply sanitize_iff in SN.
  unfold do_serialize in HS. unfold do_deserialize in HD. rewrite TF in HS, HD.
  destruct (sanitize_as_container a); cbn [negb] in HS, HD; [|discriminate].
  assert (~ (has a AInto /\ has a ATo)) as X1 by (intros [A B]; apply (SN _ _ A B); right; right; split; reflexivity).
  assert (~ (has a AFrom /\ has a ATryFrom)) as X2 by (intros [A B]; apply (SN _ _ A B); right; left; split; reflexivity).
  rewrite !has_flag in X1, X2. cbn [flag] in X1, X2. unfold is_some in X1, X2. conj; intros ty H; rewrite H in *.
  - injection HS as <-. destruct (p_into ps ty). constructor.
  - destruct (a_into a); [exfalso; auto|]. injection HS as <-. destruct (p_to ps ty). constructor.
  - injection HD as <-. destruct (p_from ps ty). constructor.
  - destruct (a_from a); [exfalso; auto|]. injection HD as <-. destruct (p_try_from ps ty). constructor.
Qed.
Print Assumptions C33_conversions.
(** The attribute [into = Point, from = Point], the conversions being the identity. *)
Definition quoted (s : string) : string := String """" (s ++ String """" "").
Definition conv_attrs : list syn_attribute := [Some (arg_num "into" (quoted "Point") ++ and_ ++ arg_num "from" (quoted "Point"))%list].
Example C33_conversions_ex : forall E, exists a S D, Attribute_try_from any_path conv_attrs = Some a /\
  a_into a = Some "Point"%string /\ a_from a = Some "Point"%string /\
  do_serialize any_path E conv_attrs (DStruct Point (point_decls E)) (same_paths (point_ser E) (point_de E)) = Some S /\
  do_deserialize any_path E conv_attrs (DStruct Point (point_decls E)) (same_paths (point_ser E) (point_de E)) = Some D /\
  supported E (to_codec (via point_codec (fun v => v) (fun _ => True) (same point_codec))) S D.
Proof.
  intros E. do 3 eexists. do 5 (split; [reflexivity|]).
  apply (sp_via E point_codec (point_ser E) (point_de E) _ (fun v => v) (fun u => inl u)).
  - apply point_supported.
  - intros v u _ W Wu H. exists u. auto.
  - apply sv_converted.
  - apply (dv_from (point_de E) (fun u => u)).
Qed.
(** A field skipped on one side only: the decoder fails on every encoding. *)
Definition skip_ser : list syn_attribute := [Some [TIdent "skip_serializing"]]%string.
Definition skip_de : list syn_attribute := [Some [TIdent "skip_deserializing"]]%string.
Definition One : list Type := [Z : Type].
Theorem C33_skip_serializing_refuted : forall E ps, exists S D,
  do_serialize any_path E [] (DStruct One (int_field E skip_ser 0%Z 1, tt)) ps = Some S /\
  do_deserialize any_path E [] (DStruct One (int_field E skip_ser 0%Z 1, tt)) ps = Some D /\
  forall v, emits (fun _ W => write_der_contents S W v) [] /\ from_der D [0x30] [] = Err (Error_context (field_ctx 2 1) UnterminatedBytes).
Proof.
  intros E ps. do 2 eexists. split; [reflexivity|]. split; [reflexivity|]. intros v. split; [|vm_compute; reflexivity].
  exists []. split; reflexivity.
Qed.
Print Assumptions C33_skip_serializing_refuted.
Lemma int_small z : in_range I32 z -> nlen (int_octets z) <= 5.
Proof.
  intros R. rewrite <- (int_contents_len_eq I32 z R). cbn [int_contents_len]. change (int_bits I32) with 32.
  destruct (z <? 0)%Z; (apply N.div_le_upper_bound; [discriminate | lia]).
Qed.
Theorem C33_skip_deserializing_refuted : forall E ps, exists S D,
  do_serialize any_path E [] (DStruct One (int_field E skip_de 0%Z 1, tt)) ps = Some S /\
  do_deserialize any_path E [] (DStruct One (int_field E skip_de 0%Z 1, tt)) ps = Some D /\
  forall z, in_range I32 z -> emits (fun _ W => write_der_contents S W (z, tt)) (tlv [0x02] (int_octets z)) /\
    from_der D [0x30] (tlv [0x02] (int_octets z)) = Err ExtraContentsOctet.
Proof.
  intros E ps. do 2 eexists. split; [reflexivity|]. split; [reflexivity|]. intros z R. split.
  - pose proof (write_fields_emits E One (plain_field (named (ser_int I32) (de_int E I32) 0%Z 1), tt)
      (Coded (of_codec (int_codec I32)), tt) (z, tt)) as W. change (concat _) with (tlv [2] (int_octets z) ++ []) in W. rewrite app_nil_r in W.
    assert (nlen (tlv [2] (int_octets z)) <= isize_max) as L.
    { pose proof (int_small z R) as S. unfold tlv. rewrite !nlen_app.
      unfold length_octets. rewrite (proj2 (N.ltb_lt _ 128)) by lia. change (nlen [2]) with 1. rewrite nlen_cons, nlen_nil.
      unfold isize_max. change (2 ^ 63) with 9223372036854775808. lia. }
    apply W; [|split; [exact R | exact I] | exact L]. split; [|exact I]. split; [reflexivity|]. apply ser_int_law.
  - assert (bytes_ok (tlv [2] (int_octets z))) as Hok.
    { apply tlv_ok; [apply (small_identifier 2); lia | | apply int_octets_ok].
      pose proof (int_small z R). change (2 ^ 64) with 18446744073709551616. lia. }
    apply (from_der_contents_extra One {| dc_attr := no_attribute; dc_fields := ({| f_attr := skip_attr false false true; f_names := named (ser_int I32) (de_int E I32) 0%Z 1 |}, tt) : hlist field One |}
      [] (tlv [2] (int_octets z)) (0%Z, tt)); [exact Hok | discriminate|].
    left. split; [flags | split; reflexivity].
Qed.
Print Assumptions C33_skip_deserializing_refuted.
(** The identifier 00: a value of the struct in a container of indefinite length is taken
    for the end of its contents.  DER is not affected. *)
Definition zero_attrs : list syn_attribute :=
  [Some (arg "tag_class" "UNIVERSAL" ++ and_ ++ arg "tag_pc" "PRIMITIVE" ++ and_ ++ arg_num "tag_num" "0")%list].
Theorem C33_zero_identifier_refuted : forall E ps, exists S D,
  do_serialize any_path E zero_attrs (DStruct [] tt) ps = Some S /\
  do_deserialize any_path E zero_attrs (DStruct [] tt) ps = Some D /\
  parse_ber (de_vec E D) [0x30; 0x80; 0; 0; 0; 0] = (Ok [], [0; 0]) /\
  parse_ber (de_vec E D) [0x30; 2; 0; 0] = (Ok [tt], []).
Proof.
  intros E ps. do 2 eexists. split; [reflexivity|]. split; [reflexivity|]. destruct E as [cfg [|] pl]; split; vm_compute; reflexivity.
Qed.
Print Assumptions C33_zero_identifier_refuted.
(** With any identifier, DER round-trips, if the fields do. *)
Theorem C33_der_any_identifier : forall E is_path attrs a ID Ts decls fs cs ps S D v, good_env E ->
  Attribute_try_from is_path attrs = Some a -> plain a -> identifier (class_of a) (pc_of a) (number_of a) ID ->
  try_fields is_path Ts decls = Some fs -> supported_fields E Ts fs cs ->
  do_serialize is_path E attrs (DStruct Ts decls) ps = Some S -> do_deserialize is_path E attrs (DStruct Ts decls) ps = Some D ->
  fields_wf Ts cs v -> let bs := tlv ID (concat (fields_der Ts cs v)) in nlen bs <= isize_max ->
  (exists b, to_der E S v = Ok b /\ holds b bs) /\
  (exists v', serde_from_der D bs = Ok v' /\ fields_same Ts cs v v').
Proof.
  intros E is_path attrs a ID Ts decls fs cs ps S D v HE TF P I F SF HS HD W bs L.
  destruct (plain_struct is_path E attrs a TF Ts decls fs ps S D P F) as [KS KD]. rewrite (KS HS), (KD HD).
  assert (ID = id_slice a) as -> by (eapply identifier_fun; [exact I | apply id_slice_identifier; eapply try_from_values; exact TF]).
  pose proof (supported_fields_laws E Ts fs cs HE SF) as R.
  pose proof (fields_rel_impl _ _ (laws_spec E) _ _ _ R) as O. pose proof (fields_rel_impl _ _ (laws_ser E) _ _ _ R) as RS.
  pose proof (fields_rel_impl _ _ (laws_de E) _ _ _ R) as RD. set (dc := {| dc_attr := a; dc_fields := fs |}).
  assert (is_identifier (id_slice a)) as J by (now exists (class_of a), (pc_of a), (number_of a)).
  set (C := struct_codec (id_slice a) Ts cs). change bs with (der_of C v) in *. change (wf C v) in W.
  pose proof (struct_ser_law E Ts dc cs RS) as SL. pose proof (struct_de_law E dc cs J O RD) as DL.
  destruct (der_fits C v L) as [L1 L2]. destruct (struct_codec_ok (id_slice a) Ts fs cs J O v W) as [_ Hc].
  destruct (entry_points E (ser_fields E dc) v (id_of C v) (contents_of C v) (SL v W L1) J (Hc L2) L) as (T & (b & B1 & _ & B2) & _). split; [eauto|].
  destruct (DL v W L2) as (v' & A & _ & Sm). exists v'. split; [|exact Sm]. now rewrite (serde_der_eq _ _ _ _ T).
Qed.
Print Assumptions C33_der_any_identifier.

(** ** C34 *)
Theorem C34_round_trip : forall E is_path attrs a Tss decls vs ws ps S D v, good_env E ->
  Attribute_try_from is_path attrs = Some a -> plain a ->
  try_variants is_path Tss decls = Some vs -> supported_variants E Tss vs ws -> NoDup (variant_ids Tss ws) ->
  do_serialize is_path E attrs (DEnum Tss decls) ps = Some S -> do_deserialize is_path E attrs (DEnum Tss decls) ps = Some D ->
  let C := enum_codec Tss ws in wf C v -> nlen (der_of C v) <= isize_max ->
  (exists b, to_der E S v = Ok b /\ holds b (der_of C v)) /\
  (exists v', serde_from_der D (der_of C v) = Ok v' /\ same C v v') /\
  (exists v', serde_from_ber D (der_of C v) = Ok v' /\ same C v v').
Proof.
  intros E is_path attrs a Tss decls vs ws ps S D v HE TF P F SV ND HS HD C W L.
  assert (laws E C S D) as LW by (apply supported_laws; [assumption | now apply (sp_enum E is_path attrs a Tss decls vs ws ps)]). split; [|split].
  - destruct (der_fits C v L) as [L1 L2]. destruct (l_codec _ _ _ _ LW v W) as [J Hc].
    destruct (entry_points E S v (id_of C v) (contents_of C v) (l_ser _ _ _ _ LW v W L1) J (Hc L2) L) as (_ & (b & B1 & _ & B2) & _). eauto.
  - destruct (round_trip_der E C S D LW v W L) as (v' & W' & Sm & A & _). eauto.
  - destruct (round_trip_ber E C S D LW v (der_of C v) W (der_is_ber E C S D LW v W)) as (v' & W' & Sm & _ & A & _); [now apply isize_lt|]. eauto.
Qed.
Print Assumptions C34_round_trip.
(** Which values are the same, and what the octets are: the variant, and its fields. *)
Theorem C34_values : forall Ts Tss (w : variant_spec Ts) ws t t' v v',
  let C := enum_codec (Ts :: Tss) (w, ws) in let C' := enum_codec Tss ws in
  (same C (inl t) (inl t') <-> fields_same Ts (snd w) t t') /\ (same C (inr v) (inr v') <-> same C' v v') /\
  ~ same C (inl t) (inr v') /\ ~ same C (inr v) (inl t') /\
  der_of C (inl t) = tlv (fst w) (concat (fields_der Ts (snd w) t)) /\ der_of C (inr v) = der_of C' v.
Proof. intros. repeat split; auto. Qed.
Print Assumptions C34_values.
Theorem C34_accepts : forall is_path E attrs a Tss decls vs ps D, Attribute_try_from is_path attrs = Some a ->
  plain a -> try_variants is_path Tss decls = Some vs -> do_deserialize is_path E attrs (DEnum Tss decls) ps = Some D ->
  (forall id c v, bytes_ok c -> (from_der D id c = Ok v <-> variant_reads (fun Ts fs t => der_fields Ts fs c t) id Tss vs v)) /\
  (forall id c v, bytes_ok c -> (from_ber D id (Definite (nlen c)) c = Ok v <-> variant_reads (fun Ts fs t => ber_fields Ts fs c t) id Tss vs v)) /\
  (forall id c v, bytes_ok c -> (from_ber D id Indefinite c = Ok v <->
     variant_reads (fun Ts fs t => exists bs, c = bs ++ [0; 0] /\ ber_fields Ts fs bs t) id Tss vs v)).
Proof. intros is_path E attrs a Tss decls vs ps D TF. now apply enum_accepts. Qed.
Print Assumptions C34_accepts.
Theorem C34_unknown : forall is_path E attrs a Tss decls vs ps D id l c, Attribute_try_from is_path attrs = Some a ->
  plain a -> try_variants is_path Tss decls = Some vs -> do_deserialize is_path E attrs (DEnum Tss decls) ps = Some D ->
  unknown_id id Tss vs -> from_der D id c = Err UnmatchedId /\ from_ber D id l c = Err UnmatchedId.
Proof. intros is_path E attrs a Tss decls vs ps D id l c TF P F HD. now apply (enum_unknown is_path E attrs a TF Tss decls vs ps D P F HD). Qed.
Print Assumptions C34_unknown.
Example C34_ex : let E := ex_env true in wf shape_codec ex_shape /\ supported_variants E Shape (shape_variants E) shape_specs /\
  NoDup (variant_ids Shape shape_specs) /\
  (exists b, to_der E (shape_ser E) ex_shape = Ok b /\ bf_slice b = ex_shape_der) /\
  serde_from_der (shape_de E) ex_shape_der = Ok (inr (inl ([(7, (true, (-300, tt))); (7, (true, (-300, tt)))], (false, tt))))%Z /\
  serde_from_der (shape_de E) [0x61; 3; 2; 1; 9] = Ok (inl (9, tt)%Z) /\
  serde_from_der (shape_de E) [0x63; 3; 2; 1; 9] = Err UnmatchedId.
Proof.
  cbv zeta. split; [apply ex_shape_ok|]. split; [apply shape_supported_variants, ex_good|]. split; [apply shape_ids|].
  split; [eexists; split; vm_compute; reflexivity|]. repeat split; vm_compute; reflexivity.
Qed.
(** Without different identifiers the first variant is taken: both variants of
    [enum { A(i32), B(i32) }] are SEQUENCEs. *)
Example C34_same_identifiers_ex : let E := ex_env true in
  let decls := ({| vd_attrs := []; vd_fields := (int_field E [] 0%Z 1, tt) : hlist field_decl One |},
    ({| vd_attrs := []; vd_fields := (int_field E [] 0%Z 1, tt) : hlist field_decl One |}, tt)) : vlist variant_decl [One; One] in
  forall ps, exists S D, do_serialize any_path E [] (DEnum [One; One] decls) ps = Some S /\ do_deserialize any_path E [] (DEnum [One; One] decls) ps = Some D /\
  (exists b, to_der E S (inr (inl (5, tt)))%Z = Ok b /\ bf_slice b = [0x30; 3; 2; 1; 5]) /\
  serde_from_der D [0x30; 3; 2; 1; 5] = Ok (inl (5, tt))%Z.
Proof.
  cbv zeta. intros ps. do 2 eexists. split; [reflexivity|]. split; [reflexivity|]. split; [eexists; split; vm_compute; reflexivity | vm_compute; reflexivity].
Qed.

(** ** C24-C29, C36, C43 for the types with derived implementations *)
Theorem C24_derived : forall E C S D v, good_env E -> supported E C S D -> wf C v -> nlen (contents_of C v) <= isize_max ->
  emits (fun _ W => write_id S W v) (id_of C v) /\ emits (fun _ W => write_der_contents S W v) (contents_of C v) /\
  announces (id_len S v) (id_of C v) /\ announces (der_contents_len S v) (contents_of C v).
Proof. intros E C S D v HE P W L. destruct (l_ser _ _ _ _ (supported_laws E C S D HE P) v W L). auto. Qed.
Print Assumptions C24_derived.
Theorem C24_derived_known : forall E sets C S D v, good_env E -> direct E sets C S D -> wf C v -> nlen (contents_of C v) <= isize_max ->
  id_len S v = Ok (Some (nlen (id_of C v))) /\ der_contents_len S v = Ok (Some (nlen (contents_of C v))).
Proof. intros E sets C S D v HE P. apply (direct_all E sets C S D HE P). Qed.
Print Assumptions C24_derived_known.
Example C24_derived_ex : der_contents_len (shape_ser (ex_env true)) ex_shape = Ok (Some 23) /\ nlen (contents_of shape_codec ex_shape) = 23.
Proof. split; vm_compute; reflexivity. Qed.
(** A derived key with a converted field: the map announces a wrong length, and its DER
    is wrong. *)
Definition into_attrs : list syn_attribute := [Some (arg_num "into" (quoted "i32"))].
Theorem C24_derived_key_refuted : forall ps, let E := ex_env false in exists S,
  do_serialize any_path E [] (DStruct One (int_field E into_attrs 0%Z 1, tt)) ps = Some S /\
  ser_law (struct_codec [0x30] One (Coded (of_codec (int_codec I32)), tt)) S /\
  exists b, to_der E (ser_hash_map E S ser_bool) [((5, tt)%Z, true)] = Ok b /\
    bf_slice b = [0x31; 0; 0x30; 8; 0x30; 3; 2; 1; 5; 1; 1; 0xff].
Proof.
  intros ps E. eexists. split; [reflexivity|]. split; [|eexists; split; vm_compute; reflexivity].
  apply (struct_ser_law E One {| dc_attr := no_attribute; dc_fields := _ |}). split; [|exact I]. split; [reflexivity|].
  intros z R L. destruct (proj1 (ser_int_law I32) z R L). split; assumption.
Qed.
Print Assumptions C24_derived_key_refuted.

Theorem C25_derived : forall E C S D v, good_env E -> supported E C S D -> wf C v -> nlen (der_of C v) <= isize_max ->
  (exists b, to_der E S v = Ok b /\ to_ber E S v = Ok b /\ holds b (der_of C v)) /\
  emits (fun _ W => write_der E S W v) (der_of C v) /\ emits (fun _ W => write_ber E S W v) (der_of C v) /\
  DerRef_parse (der_of C v) = (Ok (der_of C v), []).
Proof.
  intros E C S D v HE P W L. pose proof (supported_laws E C S D HE P) as LW. destruct (der_fits C v L) as [L1 L2].
  destruct (l_codec _ _ _ _ LW v W) as [I Hc].
  apply (entry_points E S v (id_of C v) (contents_of C v) (l_ser _ _ _ _ LW v W L1) I (Hc L2) L).
Qed.
Print Assumptions C25_derived.
Theorem C26_derived : forall E C S D v, good_env E -> supported E C S D -> wf C v -> nlen (der_of C v) <= isize_max ->
  exists b v', to_der E S v = Ok b /\ bf_slice b = der_of C v /\ wf C v' /\ same C v v' /\
  serde_from_der D (bf_slice b) = Ok v' /\
  (forall rest, bytes_ok rest -> parse_der D (bf_slice b ++ rest) = (Ok v', rest)) /\
  (forall St (R : reader St) content inv s fuel rest, greedy R content inv -> inv s -> content s = bf_slice b ++ rest ->
     bytes_ok rest -> nlen (content s) <= isize_max -> (length (content s) <= fuel)%nat ->
     exists s', read_der D R fuel s = (Ok v', s') /\ content s' = rest).
Proof.
  intros E C S D v HE P W L. pose proof (supported_laws E C S D HE P) as LW.
  destruct (to_der_law E C S D LW v W L) as (b & Eb & Es). destruct (round_trip_der E C S D LW v W L) as (v' & W' & Sm & A).
  exists b, v'. rewrite Es. split; [assumption|]. split; [reflexivity|]. do 2 (split; [assumption|]). exact A.
Qed.
Print Assumptions C26_derived.
Theorem C27_derived : forall E C S D v, good_env E -> supported E C S D -> wf C v -> nlen (der_of C v) <= isize_max ->
  exists b v', to_der E S v = Ok b /\ bf_slice b = der_of C v /\ wf C v' /\ same C v v' /\ serde_from_ber D (bf_slice b) = Ok v' /\
  (forall rest, bytes_ok rest -> parse_ber D (bf_slice b ++ rest) = (Ok v', rest)) /\
  (forall St (R : reader St) content inv s fuel rest, steady R content inv -> inv s -> content s = bf_slice b ++ rest ->
     bytes_ok rest -> nlen (content s) <= isize_max -> (length (content s) + 2 <= fuel)%nat ->
     exists s', read_ber D R fuel s = (Ok v', s') /\ content s' = rest).
Proof.
  intros E C S D v HE P W L. pose proof (supported_laws E C S D HE P) as LW.
  destruct (to_der_law E C S D LW v W L) as (b & Eb & Es).
  destruct (round_trip_ber E C S D LW v (der_of C v) W (der_is_ber E C S D LW v W)) as (v' & W' & Sm & _ & A); [now apply isize_lt|].
  exists b, v'. rewrite Es. split; [assumption|]. split; [reflexivity|]. do 2 (split; [assumption|]). exact A.
Qed.
Print Assumptions C27_derived.
Example C25_27_derived_ex : let E := ex_env true in supported E shape_codec (shape_ser E) (shape_de E) /\
  parse_ber (shape_de E) (ex_shape_der ++ [9]) = (Ok (inr (inl ([(7, (true, (-300, tt))); (7, (true, (-300, tt)))], (false, tt))))%Z, [9]).
Proof. cbv zeta. split; [apply shape_supported, ex_good | vm_compute; reflexivity]. Qed.
Theorem C28_derived : forall E C S D bs rest v, good_env E -> direct E false C S D -> bytes_ok bs -> parse_der D bs = (Ok v, rest) ->
  wf C v /\ bs = der_of C v ++ rest /\
  (nlen bs <= isize_max -> exists b, to_der E S v = Ok b /\ bs = bf_slice b ++ rest).
Proof.
  intros E C S D bs rest v HE SQ Hok H. destruct (canonical_der C D bs rest v (direct_canonical _ _ _ _ SQ) Hok H) as (W & -> & T).
  split; [assumption|]. split; [reflexivity|]. intros L. rewrite nlen_app in L.
  pose proof (supported_laws E C S D HE (proj1 (direct_all _ _ _ _ _ HE SQ))) as LW.
  destruct (to_der_law E C S D LW v W) as (b & Eb & <-); [lia|]. eauto.
Qed.
Print Assumptions C28_derived.
Example C28_derived_ex : let E := ex_env true in direct E false shape_codec (shape_ser E) (shape_de E) /\
  parse_der (shape_de E) (ex_shape_der ++ [9]) = (Ok (inr (inl ([(7, (true, (-300, tt))); (7, (true, (-300, tt)))], (false, tt))))%Z, [9]).
Proof. cbv zeta. split; [apply shape_direct | vm_compute; reflexivity]. Qed.
Lemma enum_indefinite E Tss (vs : vlist data_container Tss) id c :
  from_ber (de_enum E Tss vs) id Indefinite (c ++ [0; 0]) = from_ber (de_enum E Tss vs) id (Definite (nlen c)) c.
Proof.
  destruct (exclude_eoc_both E c) as [X1 X2]. cbn [from_ber de_enum].
  induction Tss as [|Ts Tss IH]; [reflexivity|]. cbn [dispatch fst snd]. destruct (bytes_eqb id (id_slice (dc_attr (fst vs)))).
  - now rewrite !from_ber_contents_eq, X1, X2.
  - now rewrite IH.
Qed.
(** Derived structs and enums, any contents, even where both fail. *)
Theorem C29_derived_containers : forall is_path E attrs a d ps D id c, Attribute_try_from is_path attrs = Some a -> plain a ->
  do_deserialize is_path E attrs d ps = Some D ->
  from_ber D id Indefinite (c ++ [0; 0]) = from_ber D id (Definite (nlen c)) c.
Proof.
  intros is_path E attrs a d ps D id c TF P HD. destruct (exclude_eoc_both E c) as [X1 X2].
  destruct (plain_cases a P) as (P1 & P2 & P3 & P4 & P5). unfold do_deserialize in HD. rewrite TF, P3, P4 in HD.
  destruct (negb (sanitize_as_container a)); [discriminate|]. destruct d as [Ts decls|Tss decls|T].
  - unfold do_deserialize_struct in HD. destruct (try_struct is_path a Ts decls) as [dc|] eqn:F; [|discriminate].
    unfold try_struct in F. destruct (negb (sanitize_as_struct a)); [discriminate|]. destruct (try_fields is_path Ts decls); [|discriminate].
    injection F as <-. cbn [dc_attr] in HD. rewrite P5 in HD. injection HD as <-. cbn [from_ber dc_attr].
    destruct (negb (bytes_eqb id (id_slice a))); [reflexivity|]. now rewrite !from_ber_contents_eq, X1, X2.
  - unfold do_deserialize_enum in HD. destruct (negb (sanitize_as_enum a)); [discriminate|].
    destruct (try_variants is_path Tss decls) as [vs|]; [|discriminate]. injection HD as <-. apply enum_indefinite.
  - discriminate.
Qed.
Print Assumptions C29_derived_containers.
Theorem C29_derived_nested : forall E C S D v bs rest, good_env E -> supported E C S D -> wf C v -> ber_octets C v bs -> nlen bs < usize_limit ->
  bytes_ok rest -> exists v', wf C v' /\ same C v v' /\ ber_value bs /\ serde_from_ber D bs = Ok v' /\ parse_ber D (bs ++ rest) = (Ok v', rest).
Proof.
  intros E C S D v bs rest HE P W O L Hr. pose proof (supported_laws E C S D HE P) as LW.
  destruct (round_trip_ber E C S D LW v bs W O L) as (v' & W' & Sm & V & A & B & _). exists v'. auto 10.
Qed.
Print Assumptions C29_derived_nested.
Example C29_derived_ex : let D := shape_de (ex_env true) in
  parse_ber D [0x62; 0x80; 0x30; 0x80; 0x65; 0x80; 2; 1; 7; 2; 1; 8; 0; 0; 0; 0; 1; 1; 5; 0; 0; 9] =
    (Ok (inr (inl ([(7, (true, (8, tt)))], (true, tt))))%Z, [9]) /\
  parse_ber D [0x62; 13; 0x30; 8; 0x65; 6; 2; 1; 7; 2; 1; 8; 1; 1; 5; 9] =
    (Ok (inr (inl ([(7, (true, (8, tt)))], (true, tt))))%Z, [9]).
Proof. split; vm_compute; reflexivity. Qed.
Theorem C36_derived : forall E C S D v St (W : writer St) log s r s', good_env E -> supported E C S D -> wf C v ->
  nlen (der_of C v) <= isize_max -> honest_writer W log -> write_der E S W v s = (r, s') ->
  exists p q, der_of C v = p ++ q /\ log s' = log s ++ p /\
    match r with
    | Ok _ => q = []
    | Err e => exists k s1 q1 q2, e = Io k /\ q = q1 ++ q2 /\ q1 <> [] /\ last_call W s1 q1 k s'
    | Panic => False
    | NoFuel => True
    end.
Proof.
  intros E C S D v St W log s r s' HE P Wv L HW H. destruct (C25_derived E C S D v HE P Wv L) as (_ & EM & _).
  exact (failing_writer _ _ W log s r s' EM HW H).
Qed.
Print Assumptions C36_derived.
Theorem C36_derived_exact : forall E C S D v k step e, good_env E -> supported E C S D -> wf C v -> nlen (der_of C v) <= isize_max ->
  0 < step -> e <> Interrupted ->
  write_der E S (limited k step e) v [] =
  if nlen (der_of C v) <=? k then (Ok tt, der_of C v) else (Err (Io e), take k (der_of C v)).
Proof.
  intros E C S D v k step e HE P Wv L H0 He. destruct (C25_derived E C S D v HE P Wv L) as (_ & EM & _).
  exact (limited_writer _ _ k step e EM H0 He).
Qed.
Print Assumptions C36_derived_exact.
Example C36_derived_ex : write_der (ex_env true) (shape_ser (ex_env true)) (limited 9 2 (OtherIo 5)) ex_shape [] = (Err (Io (OtherIo 5)), take 9 ex_shape_der).
Proof. vm_compute. reflexivity. Qed.
Theorem C43_derived : forall E C S D, good_env E -> supported E C S D ->
  (forall id c, bytes_ok c -> answers (from_der D id c)) /\
  (e_debug E = false -> forall id l c, bytes_ok c -> answers (from_ber D id l c)) /\
  (forall bs, bytes_ok bs -> answers (fst (parse_der D bs)) /\ (e_debug E = false -> answers (fst (parse_ber D bs)))).
Proof.
  intros E C S D HE P. pose proof (supported_laws E C S D HE P) as LW. split; [apply (l_der_answers _ _ _ _ LW)|].
  split; [intros R id l c Hc; apply (l_ber_answers _ _ _ _ LW); auto|]. intros bs Hok.
  destruct (laws_parse E C S D bs LW Hok). auto.
Qed.
Print Assumptions C43_derived.
Theorem C43_derived_quiet : forall E C S D, good_env E -> supported E C S D ->
  (forall id c, bytes_ok c -> quiet c -> answers (from_ber D id (Definite (nlen c)) c)) /\
  (forall bs, bytes_ok bs -> quiet bs -> answers (fst (parse_ber D bs))).
Proof.
  intros E C S D HE P. pose proof (supported_laws E C S D HE P) as LW. split.
  - intros id c Hc Q. apply (l_ber_answers _ _ _ _ LW); auto.
  - intros bs Hok Q. apply (laws_parse E C S D bs LW Hok). now right.
Qed.
Print Assumptions C43_derived_quiet.
Example C43_derived_quiet_ex : let D := shape_de (ex_env true) in supported (ex_env true) shape_codec (shape_ser (ex_env true)) D /\
  quiet [0x62; 3; 0x30; 1; 0xff] /\
  fst (parse_ber D [0x62; 3; 0x30; 1; 0xff]) = Err (Error_context (field_ctx 1 4) (Error_context (ctx 2 0) UnterminatedBytes)).
Proof.
  cbv zeta. split; [apply shape_supported, ex_good|]. split; [|vm_compute; reflexivity].
  apply no_80_quiet; [repeat constructor; cbv; reflexivity | cbn; intuition discriminate].
Qed.
Example C43_derived_ex : let D := shape_de (ex_env false) in supported (ex_env false) shape_codec (shape_ser (ex_env false)) D /\
  fst (parse_ber D [0x62; 3; 0x30; 1; 0xff]) = Err (Error_context (field_ctx 1 4) (Error_context (ctx 2 0) UnterminatedBytes)) /\
  fst (parse_der D [0x61; 2; 2; 5]) = Err (Error_context (field_ctx 2 1) UnterminatedBytes).
Proof. cbv zeta. split; [apply shape_supported, ex_good|]. split; vm_compute; reflexivity. Qed.
