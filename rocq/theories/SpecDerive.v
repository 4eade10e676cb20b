(** Specification of the derive macros: what a struct or enum is for the encoding rules,
    from the documentation of [bsn1_serde] (bsn1_serde_macros/annotation_bsn1_serde.md). *)
From Coq Require Import String Ascii.
From Verif Require Import Base ModelError ModelIo ModelTag ModelContents ModelTlv ModelSerde ModelAttr ModelDerive Spec SpecSerde SpecAttr.

(** ** Fields *)
(** A codec of values of type [T]. *)
Record codec_on (T : Type) := {
  on_wf : T -> Prop; on_same : T -> T -> Prop; on_id : T -> list N; on_contents : T -> list N;
  on_ber : T -> list N -> Length -> list N -> Prop }.
Arguments on_wf {T} c. Arguments on_same {T} c. Arguments on_id {T} c. Arguments on_contents {T} c. Arguments on_ber {T} c.
Definition to_codec {T} (c : codec_on T) : codec :=
  {| car := T; wf := on_wf c; same := on_same c; id_of := on_id c; contents_of := on_contents c; ber_of := on_ber c |}.
Definition of_codec (C : codec) : codec_on (car C) :=
  {| on_wf := wf C; on_same := same C; on_id := id_of C; on_contents := contents_of C; on_ber := ber_of C |}.
(** A field: skipped, with the value it gets when decoded, or encoded. *)
Inductive field_spec (T : Type) := Skipped (default : T) | Coded (c : codec_on T).
Arguments Skipped {T} default.
Arguments Coded {T} c.

(** What the attribute of a field says. *)
Definition skips_ser (a : attribute) : Prop := has a ASkip \/ has a ASkipSerializing.
Definition skips_de (a : attribute) : Prop := has a ASkip \/ has a ASkipDeserializing.
Definition default_of {T} (f : field T) : T := n_default (f_names f) (or_else (a_default (f_attr f)) "Default::default"%string).
(** How a field is serialised: as what [into] or [to] make of it, if given. *)
Definition field_ser {T} (f : field T) : serialize T :=
  let ps := n_paths (f_names f) in
  match a_into (f_attr f), a_to (f_attr f) with
  | Some ty, _ => ser_on (tg_conv (p_into ps ty)) (tg_ser (p_into ps ty))
  | None, Some path => ser_on (tg_conv (p_to ps path)) (tg_ser (p_to ps path))
  | None, None => n_ser (f_names f)
  end.
(** And deserialised: as what [from] or [try_from] take. *)
Definition field_de {T} (f : field T) : deserialize T :=
  let ps := n_paths (f_names f) in
  match a_from (f_attr f), a_try_from (f_attr f) with
  | Some ty, _ => do_from_deserialize (p_from ps ty)
  | None, Some ty => do_try_from_deserialize (p_try_from ps ty)
  | None, None => n_de (f_names f)
  end.

(** ** Structs *)
Fixpoint fields_wf (Ts : list Type) : hlist field_spec Ts -> tuple Ts -> Prop :=
  match Ts with
  | [] => fun _ _ => True
  | T :: Ts' => fun cs v =>
      match fst cs with Skipped _ => True | Coded c => on_wf c (fst v) end /\ fields_wf Ts' (snd cs) (snd v)
  end.
(** [v'] has the encoded fields of [v], and the others have their default. *)
Fixpoint fields_same (Ts : list Type) : hlist field_spec Ts -> tuple Ts -> tuple Ts -> Prop :=
  match Ts with
  | [] => fun _ _ _ => True
  | T :: Ts' => fun cs v v' =>
      match fst cs with Skipped d => fst v' = d | Coded c => on_same c (fst v) (fst v') end /\
      fields_same Ts' (snd cs) (snd v) (snd v')
  end.
(** The DER of each encoded field, in order. *)
Fixpoint fields_der (Ts : list Type) : hlist field_spec Ts -> tuple Ts -> list (list N) :=
  match Ts with
  | [] => fun _ _ => []
  | T :: Ts' => fun cs v =>
      match fst cs with
      | Skipped _ => fields_der Ts' (snd cs) (snd v)
      | Coded c => der_of (to_codec c) (fst v) :: fields_der Ts' (snd cs) (snd v)
      end
  end.
(** BER of each. *)
Fixpoint fields_ber (Ts : list Type) : hlist field_spec Ts -> tuple Ts -> list (list N) -> Prop :=
  match Ts with
  | [] => fun _ _ items => items = []
  | T :: Ts' => fun cs v items =>
      match fst cs with
      | Skipped _ => fields_ber Ts' (snd cs) (snd v) items
      | Coded c => exists b items', items = b :: items' /\ ber_octets (to_codec c) (fst v) b /\ fields_ber Ts' (snd cs) (snd v) items'
      end
  end.
(** The identifier of the attribute, and the fields as contents. *)
Definition struct_codec (ID : list N) (Ts : list Type) (cs : hlist field_spec Ts) : codec :=
  {| car := tuple Ts; wf := fields_wf Ts cs; same := fields_same Ts cs;
     id_of := fun _ => ID; contents_of := fun v => concat (fields_der Ts cs v);
     ber_of := fun v id l c => id = ID /\ exists items, fields_ber Ts cs v items /\ constructed items l c |}.
(** A transparent struct: as its only encoded field. *)
Fixpoint only_field {X} (pick : forall T, codec_on T -> T -> X) (none : X) (Ts : list Type) : hlist field_spec Ts -> tuple Ts -> X :=
  match Ts with
  | [] => fun _ _ => none
  | T :: Ts' => fun cs v =>
      match fst cs with
      | Skipped _ => only_field pick none Ts' (snd cs) (snd v)
      | Coded c => pick T c (fst v)
      end
  end.
Definition transparent_codec (Ts : list Type) (cs : hlist field_spec Ts) : codec :=
  {| car := tuple Ts; wf := fields_wf Ts cs; same := fields_same Ts cs;
     id_of := only_field (fun _ => on_id) [] Ts cs; contents_of := only_field (fun _ => on_contents) [] Ts cs;
     ber_of := only_field (fun _ => on_ber) (fun _ _ _ => False) Ts cs |}.

(** ** Enums *)
(** A variant: its identifier and its fields. *)
Definition variant_spec (Ts : list Type) : Type := list N * hlist field_spec Ts.
Definition variant_codec {Ts} (w : variant_spec Ts) : codec := struct_codec (fst w) Ts (snd w).
(** One or the other. *)
Definition sum_on {A B} (a : codec_on A) (b : codec_on B) : codec_on (A + B) :=
  {| on_wf := fun v => match v with inl x => on_wf a x | inr y => on_wf b y end;
     on_same := fun v w => match v, w with inl x, inl x' => on_same a x x' | inr y, inr y' => on_same b y y' | _, _ => False end;
     on_id := fun v => match v with inl x => on_id a x | inr y => on_id b y end;
     on_contents := fun v => match v with inl x => on_contents a x | inr y => on_contents b y end;
     on_ber := fun v => match v with inl x => on_ber a x | inr y => on_ber b y end |}.
Definition empty_on : codec_on Empty_set :=
  {| on_wf := fun _ => True; on_same := eq; on_id := fun v : Empty_set => match v with end;
     on_contents := fun v : Empty_set => match v with end; on_ber := fun v : Empty_set => match v with end |}.
Fixpoint enum_on (Tss : list (list Type)) : vlist variant_spec Tss -> codec_on (choice Tss) :=
  match Tss with
  | [] => fun _ => empty_on
  | Ts :: Tss' => fun ws => sum_on (A := tuple Ts) (of_codec (variant_codec (fst ws))) (enum_on Tss' (snd ws))
  end.
Definition enum_codec (Tss : list (list Type)) (ws : vlist variant_spec Tss) : codec := to_codec (enum_on Tss ws).
Fixpoint variant_ids (Tss : list (list Type)) : vlist variant_spec Tss -> list (list N) :=
  match Tss with
  | [] => fun _ => []
  | Ts :: Tss' => fun ws => fst (fst ws) :: variant_ids Tss' (snd ws)
  end.

(** ** Conversions *)
(** Values of type [T] that satisfy [P] and are equal when [eqv], encoded as what [f]
    makes of them. *)
Definition via (C : codec) {T} (f : T -> car C) (P : T -> Prop) (eqv : T -> T -> Prop) : codec_on T :=
  {| on_wf := fun v => P v /\ wf C (f v); on_same := eqv; on_id := fun v => id_of C (f v);
     on_contents := fun v => contents_of C (f v); on_ber := fun v => ber_of C (f v) |}.
(** [g] takes back what [f] did. *)
Definition undoes (C : codec) {T} (f : T -> car C) (g : car C -> T + anyhow) (P : T -> Prop) (eqv : T -> T -> Prop) : Prop :=
  forall v u, P v -> wf C (f v) -> wf C u -> same C (f v) u -> exists v', g u = inl v' /\ P v' /\ wf C (f v') /\ eqv v v'.
(** Implementations that convert. *)
Inductive ser_via {T U} (f : T -> U) (S0 : serialize U) : serialize T -> Prop :=
| sv_on : ser_via f S0 (ser_on f S0)
| sv_converted : ser_via f S0 (ser_converted {| tg_ty := U; tg_conv := f; tg_ser := S0 |}).
Inductive de_via {T U} (D0 : deserialize U) : (U -> T + anyhow) -> deserialize T -> Prop :=
| dv_from g : de_via D0 (fun u => inl (g u)) (do_from_deserialize {| sr_ty := U; sr_conv := g; sr_de := D0 |})
| dv_try_from g : de_via D0 g (do_try_from_deserialize {| ts_ty := U; ts_conv := g; ts_de := D0 |}).

(** ** What is accepted *)
(** The octets are one value for each field that is not skipped, each decoding to the
    field; the others have their defaults. *)
Fixpoint der_fields (Ts : list Type) : hlist field Ts -> list N -> tuple Ts -> Prop :=
  match Ts with
  | [] => fun _ bs _ => bs = []
  | T :: Ts' => fun fs bs v =>
      (skips_de (f_attr (fst fs)) /\ fst v = default_of (fst fs) /\ der_fields Ts' (snd fs) bs (snd v)) \/
      (~ skips_de (f_attr (fst fs)) /\ exists id c rest, is_identifier id /\ nlen c < usize_limit /\ bs = tlv id c ++ rest /\
         from_der (field_de (fst fs)) id c = Ok (fst v) /\ der_fields Ts' (snd fs) rest (snd v))
  end.
Fixpoint ber_fields (Ts : list Type) : hlist field Ts -> list N -> tuple Ts -> Prop :=
  match Ts with
  | [] => fun _ bs _ => bs = []
  | T :: Ts' => fun fs bs v =>
      (skips_de (f_attr (fst fs)) /\ fst v = default_of (fst fs) /\ ber_fields Ts' (snd fs) bs (snd v)) \/
      (~ skips_de (f_attr (fst fs)) /\ exists id l c rest, ber_value (id ++ length_of l ++ c) /\ is_identifier id /\
         match l with Definite n => n = nlen c /\ nlen c < usize_limit | Indefinite => exists items, ber_items items /\ c = items ++ [0; 0] end /\
         bs = (id ++ length_of l ++ c) ++ rest /\
         from_ber (field_de (fst fs)) id l c = Ok (fst v) /\ ber_fields Ts' (snd fs) rest (snd v))
  end.

(** Of a transparent struct: the fields that are not skipped read the whole value. *)
Fixpoint whole_fields (read : forall T, field T -> T -> Prop) (Ts : list Type) : hlist field Ts -> tuple Ts -> Prop :=
  match Ts with
  | [] => fun _ _ => True
  | T :: Ts' => fun fs v =>
      ((skips_de (f_attr (fst fs)) /\ fst v = default_of (fst fs)) \/ (~ skips_de (f_attr (fst fs)) /\ read T (fst fs) (fst v))) /\
      whole_fields read Ts' (snd fs) (snd v)
  end.

(** Of an enum: the first variant whose identifier it is reads the contents. *)
Fixpoint variant_reads (read : forall Ts, hlist field Ts -> tuple Ts -> Prop) (id : list N) (Tss : list (list Type))
  : vlist data_container Tss -> choice Tss -> Prop :=
  match Tss with
  | [] => fun _ _ => False
  | Ts :: Tss' => fun vs v =>
      let here := let a := dc_attr (fst vs) in identifier (class_of a) (pc_of a) (number_of a) id in
      match v with
      | inl t => here /\ read Ts (dc_fields (fst vs)) t
      | inr v' => ~ here /\ variant_reads read id Tss' (snd vs) v'
      end
  end.

(** No variant has the identifier. *)
Fixpoint unknown_id (id : list N) (Tss : list (list Type)) : vlist data_container Tss -> Prop :=
  match Tss with
  | [] => fun _ => True
  | Ts :: Tss' => fun vs =>
      (let a := dc_attr (fst vs) in ~ identifier (class_of a) (pc_of a) (number_of a) id) /\ unknown_id id Tss' (snd vs)
  end.

(** ** Types built from the provided ones by derives *)
(** The attribute has no conversion and is not transparent. *)
Definition plain (a : attribute) : Prop :=
  ~ has a AInto /\ ~ has a ATo /\ ~ has a AFrom /\ ~ has a ATryFrom /\ ~ has a ATransparent.
(** The identifier an attribute asks for; it is not that of end-of-contents octets. *)
Definition identified (a : attribute) (ID : list N) : Prop :=
  identifier (class_of a) (pc_of a) (number_of a) ID /\ hd 0 ID <> 0.
(** The type with codec [C] has implementations [S] and [D]: provided, or derived, or
    written by the user and lawful. *)
Inductive supported (E : env) : forall C : codec, serialize (car C) -> deserialize (car C) -> Prop :=
| sp_provided C S D : provided E C S D -> supported E C S D
| sp_custom C S D : laws E C S D -> supported E C S D
| sp_vec C S D : supported E C S D -> supported E (seq_codec C) (ser_vec E S) (de_vec E D)
| sp_linked_list C S D : supported E C S D -> supported E (seq_codec C) (ser_linked_list E S) (de_linked_list E D)
| sp_vec_deque C S D : supported E C S D -> supported E (seq_codec C) (ser_vec_deque E S) (de_vec_deque E D)
| sp_btree_set C S D cmp : supported E C S D -> order_ok C cmp ->
    supported E (btree_set_codec C cmp) (ser_btree_set E S) (de_btree_set E cmp D)
| sp_hash_set C S D eqb : supported E C S D -> eqb_ok C eqb ->
    supported E (hash_set_codec C eqb) (ser_hash_set E S) (de_hash_set E eqb D)
| sp_btree_map CK SK DK CV SV DV cmp : supported E CK SK DK -> supported E CV SV DV -> order_ok CK cmp ->
    supported E (btree_map_codec CK CV cmp) (ser_btree_map E SK SV) (de_btree_map E cmp DK DV)
(** see C24_hash_map_refuted for keys of unknown length *)
| sp_hash_map CK SK DK CV SV DV eqb : supported E CK SK DK -> ser_known CK SK -> supported E CV SV DV -> eqb_ok CK eqb ->
    supported E (hash_map_codec CK CV eqb) (ser_hash_map E SK SV) (de_hash_map E eqb DK DV)
| sp_struct is_path attrs a ID Ts decls fs cs ps S D :
    Attribute_try_from is_path attrs = Some a -> plain a -> identified a ID ->
    try_fields is_path Ts decls = Some fs -> supported_fields E Ts fs cs ->
    do_serialize is_path E attrs (DStruct Ts decls) ps = Some S ->
    do_deserialize is_path E attrs (DStruct Ts decls) ps = Some D ->
    supported E (struct_codec ID Ts cs) S D
| sp_transparent is_path attrs a Ts decls fs cs ps S D :
    Attribute_try_from is_path attrs = Some a -> has a ATransparent ->
    try_fields is_path Ts decls = Some fs -> supported_fields E Ts fs cs ->
    do_serialize is_path E attrs (DStruct Ts decls) ps = Some S ->
    do_deserialize is_path E attrs (DStruct Ts decls) ps = Some D ->
    supported E (transparent_codec Ts cs) S D
| sp_enum is_path attrs a Tss decls vs ws ps S D :
    Attribute_try_from is_path attrs = Some a -> plain a ->
    try_variants is_path Tss decls = Some vs -> supported_variants E Tss vs ws -> NoDup (variant_ids Tss ws) ->
    do_serialize is_path E attrs (DEnum Tss decls) ps = Some S ->
    do_deserialize is_path E attrs (DEnum Tss decls) ps = Some D ->
    supported E (enum_codec Tss ws) S D
| sp_via C S0 D0 T (f : T -> car C) g P eqv S D : supported E C S0 D0 -> undoes C f g P eqv ->
    ser_via f S0 S -> de_via D0 g D -> supported E (to_codec (via C f P eqv)) S D
with supported_fields (E : env) : forall Ts : list Type, hlist field Ts -> hlist field_spec Ts -> Prop :=
| sf_nil : supported_fields E [] tt tt
| sf_skipped T Ts (f : field T) fs cs : skips_ser (f_attr f) -> skips_de (f_attr f) -> supported_fields E Ts fs cs ->
    supported_fields E (T :: Ts) (f, fs) (Skipped (default_of f), cs)
| sf_coded T Ts (f : field T) c fs cs : ~ skips_ser (f_attr f) -> ~ skips_de (f_attr f) ->
    supported E (to_codec c) (field_ser f) (field_de f) -> supported_fields E Ts fs cs ->
    supported_fields E (T :: Ts) (f, fs) (Coded c, cs)
with supported_variants (E : env) : forall Tss : list (list Type), vlist data_container Tss -> vlist variant_spec Tss -> Prop :=
| sv_nil : supported_variants E [] tt tt
| sv_cons Ts Tss (dc : data_container Ts) ID cs vs ws : identified (dc_attr dc) ID -> supported_fields E Ts (dc_fields dc) cs ->
    supported_variants E Tss vs ws -> supported_variants E (Ts :: Tss) (dc, vs) ((ID, cs), ws).

(** The same without conversions, and without sets and maps unless [sets]. *)
Definition unconverted (a : attribute) : Prop := ~ has a AInto /\ ~ has a ATo /\ ~ has a AFrom /\ ~ has a ATryFrom.
Inductive direct (E : env) (sets : bool) : forall C : codec, serialize (car C) -> deserialize (car C) -> Prop :=
| dr_sequential C S D : sequential E C S D -> direct E sets C S D
| dr_provided C S D : sets = true -> provided E C S D -> direct E sets C S D
| dr_vec C S D : direct E sets C S D -> direct E sets (seq_codec C) (ser_vec E S) (de_vec E D)
| dr_linked_list C S D : direct E sets C S D -> direct E sets (seq_codec C) (ser_linked_list E S) (de_linked_list E D)
| dr_vec_deque C S D : direct E sets C S D -> direct E sets (seq_codec C) (ser_vec_deque E S) (de_vec_deque E D)
| dr_btree_set C S D cmp : sets = true -> direct E sets C S D -> order_ok C cmp ->
    direct E sets (btree_set_codec C cmp) (ser_btree_set E S) (de_btree_set E cmp D)
| dr_hash_set C S D eqb : sets = true -> direct E sets C S D -> eqb_ok C eqb ->
    direct E sets (hash_set_codec C eqb) (ser_hash_set E S) (de_hash_set E eqb D)
| dr_btree_map CK SK DK CV SV DV cmp : sets = true -> direct E sets CK SK DK -> direct E sets CV SV DV -> order_ok CK cmp ->
    direct E sets (btree_map_codec CK CV cmp) (ser_btree_map E SK SV) (de_btree_map E cmp DK DV)
| dr_hash_map CK SK DK CV SV DV eqb : sets = true -> direct E sets CK SK DK -> direct E sets CV SV DV -> eqb_ok CK eqb ->
    direct E sets (hash_map_codec CK CV eqb) (ser_hash_map E SK SV) (de_hash_map E eqb DK DV)
| dr_struct is_path attrs a ID Ts decls fs cs ps S D :
    Attribute_try_from is_path attrs = Some a -> plain a -> identified a ID ->
    try_fields is_path Ts decls = Some fs -> direct_fields E sets Ts fs cs ->
    do_serialize is_path E attrs (DStruct Ts decls) ps = Some S ->
    do_deserialize is_path E attrs (DStruct Ts decls) ps = Some D ->
    direct E sets (struct_codec ID Ts cs) S D
| dr_transparent is_path attrs a Ts decls fs cs ps S D :
    Attribute_try_from is_path attrs = Some a -> has a ATransparent ->
    try_fields is_path Ts decls = Some fs -> direct_fields E sets Ts fs cs ->
    do_serialize is_path E attrs (DStruct Ts decls) ps = Some S ->
    do_deserialize is_path E attrs (DStruct Ts decls) ps = Some D ->
    direct E sets (transparent_codec Ts cs) S D
| dr_enum is_path attrs a Tss decls vs ws ps S D :
    Attribute_try_from is_path attrs = Some a -> plain a ->
    try_variants is_path Tss decls = Some vs -> direct_variants E sets Tss vs ws -> NoDup (variant_ids Tss ws) ->
    do_serialize is_path E attrs (DEnum Tss decls) ps = Some S ->
    do_deserialize is_path E attrs (DEnum Tss decls) ps = Some D ->
    direct E sets (enum_codec Tss ws) S D
with direct_fields (E : env) (sets : bool) : forall Ts : list Type, hlist field Ts -> hlist field_spec Ts -> Prop :=
| df_nil : direct_fields E sets [] tt tt
| df_skipped T Ts (f : field T) fs cs : skips_ser (f_attr f) -> skips_de (f_attr f) -> unconverted (f_attr f) ->
    direct_fields E sets Ts fs cs ->
    direct_fields E sets (T :: Ts) (f, fs) (Skipped (default_of f), cs)
| df_coded T Ts (f : field T) c fs cs : ~ skips_ser (f_attr f) -> ~ skips_de (f_attr f) -> unconverted (f_attr f) ->
    direct E sets (to_codec c) (n_ser (f_names f)) (n_de (f_names f)) -> direct_fields E sets Ts fs cs ->
    direct_fields E sets (T :: Ts) (f, fs) (Coded c, cs)
with direct_variants (E : env) (sets : bool) : forall Tss : list (list Type), vlist data_container Tss -> vlist variant_spec Tss -> Prop :=
| dv_nil : direct_variants E sets [] tt tt
| dv_cons Ts Tss (dc : data_container Ts) ID cs vs ws : identified (dc_attr dc) ID -> direct_fields E sets Ts (dc_fields dc) cs ->
    direct_variants E sets Tss vs ws -> direct_variants E sets (Ts :: Tss) (dc, vs) ((ID, cs), ws).
