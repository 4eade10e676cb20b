(** What decoded collections hold when elements or keys are equal, and what decoded
    values are. *)
From Verif Require Import Base ModelError ModelIo ModelTag ModelContents ModelBuf ModelTlv ModelSerde Spec SpecIo SpecSerde.
From Verif Require Import ModelAttr ModelDerive SpecAttr SpecDerive.
From Coq Require Import Permutation Sorted.

(** ** What std asks of Ord, and of Eq with Hash, on the values that satisfy [P] *)
Definition total_order {T} (P : T -> Prop) (cmp : T -> T -> comparison) : Prop :=
  (forall x y, P x -> P y -> cmp y x = CompOpp (cmp x y)) /\
  (forall x y z, P x -> P y -> P z -> cmp x y = Lt -> cmp y z = Lt -> cmp x z = Lt) /\
  (forall x y z, P x -> P y -> P z -> cmp x y = Eq -> cmp x z = cmp y z).
Definition equivalence {T} (P : T -> Prop) (eqb : T -> T -> bool) : Prop :=
  (forall x, P x -> eqb x x = true) /\
  (forall x y, P x -> P y -> eqb x y = eqb y x) /\
  (forall x y z, P x -> P y -> P z -> eqb x y = true -> eqb y z = true -> eqb x z = true).
Definition any {T} (_ : T) : Prop := True.

(** ** Equal elements and keys *)
(** [y] is in [xs], and nothing before it is equal to it. *)
Definition first_in {T} (eqv : T -> T -> Prop) (xs : list T) (y : T) : Prop :=
  exists l1 l2, xs = l1 ++ y :: l2 /\ Forall (fun x => ~ eqv x y) l1.
(** [v] comes with a key equal to [k], and no later key is equal to [k]. *)
Definition last_value {K V} (eqv : K -> K -> Prop) (kvs : list (K * V)) (k : K) (v : V) : Prop :=
  exists l1 k' l2, kvs = l1 ++ (k', v) :: l2 /\ eqv k' k /\ Forall (fun p => ~ eqv (fst p) k) l2.
(** Of equal elements a set has the first. *)
Definition set_of {T} (eqv : T -> T -> Prop) (xs l : list T) : Prop := forall y, In y l <-> first_in eqv xs y.
(** Of equal keys a map has the first, with the last value. *)
Definition map_of {K V} (eqv : K -> K -> Prop) (kvs l : list (K * V)) : Prop :=
  forall k v, In (k, v) l <-> first_in eqv (map fst kvs) k /\ last_value eqv kvs k v.
Definition equal_by {T} (cmp : T -> T -> comparison) (x y : T) : Prop := cmp x y = Eq.
Definition equal_if {T} (eqb : T -> T -> bool) (x y : T) : Prop := eqb x y = true.

(** The octets [b] are one value, which decodes as [x]. *)
Definition der_item {T} (D : deserialize T) (b : list N) (x : T) : Prop :=
  (exists id c, der_tlv id c b) /\ serde_from_der D b = Ok x.
Definition ber_item {T} (D : deserialize T) (b : list N) (x : T) : Prop :=
  ber_value b /\ serde_from_ber D b = Ok x.
(** The length given is that of the contents. *)
Definition right_length (l : Length) (c : list N) : Prop :=
  match l with Definite n => n = nlen c | Indefinite => True end.

(** ** What decoded values are *)
(** Whatever is decoded is a value of the type. *)
Definition sound (C : codec) (D : deserialize (car C)) : Prop :=
  (forall id c v, bytes_ok c -> nlen c < usize_limit -> from_der D id c = Ok v -> wf C v) /\
  (forall id l c v, bytes_ok c -> nlen c < usize_limit -> from_ber D id l c = Ok v -> wf C v).
(** And encoding it takes no more octets than were decoded, or at most five times as
    many if that was BER: the header of a value has at least two octets, in DER it takes
    at most the identifier and nine. *)
Definition compact (C : codec) (D : deserialize (car C)) : Prop :=
  (forall id c v, bytes_ok c -> nlen c < usize_limit -> from_der D id c = Ok v ->
     id_of C v = id /\ nlen (contents_of C v) <= nlen c) /\
  (forall id l c v, bytes_ok c -> 5 * nlen c < usize_limit -> from_ber D id l c = Ok v ->
     nlen (id_of C v) <= nlen id /\ nlen (contents_of C v) <= 5 * nlen c).
(** What a conversion makes of a value is a value. *)
Definition makes (C : codec) {T} (f : T -> car C) (g : car C -> T + anyhow) (P : T -> Prop) : Prop :=
  forall u v, wf C u -> g u = inl v -> P v /\ wf C (f v).

(** The type with codec [C] has the implementation [D]: provided, or derived, or written
    by the user and sound; with conversions if [conv]. *)
Inductive decoded (E : env) (conv : bool) : forall C : codec, deserialize (car C) -> Prop :=
| dc_bool : decoded E conv bool_codec (de_bool E)
| dc_int t : decoded E conv (int_codec t) (de_int E t)
| dc_string : decoded E conv string_codec (de_string E)
| dc_octets : decoded E conv octets_codec de_octets
| dc_custom C D : sound C D -> conv = true \/ compact C D -> decoded E conv C D
| dc_vec C D : decoded E conv C D -> decoded E conv (seq_codec C) (de_vec E D)
| dc_linked_list C D : decoded E conv C D -> decoded E conv (seq_codec C) (de_linked_list E D)
| dc_vec_deque C D : decoded E conv C D -> decoded E conv (seq_codec C) (de_vec_deque E D)
| dc_btree_set C D cmp : decoded E conv C D -> total_order (wf C) cmp ->
    decoded E conv (btree_set_codec C cmp) (de_btree_set E cmp D)
| dc_hash_set C D eqb : decoded E conv C D -> equivalence (wf C) eqb ->
    decoded E conv (hash_set_codec C eqb) (de_hash_set E eqb D)
| dc_btree_map CK DK CV DV cmp : decoded E conv CK DK -> decoded E conv CV DV -> total_order (wf CK) cmp ->
    decoded E conv (btree_map_codec CK CV cmp) (de_btree_map E cmp DK DV)
| dc_hash_map CK DK CV DV eqb : decoded E conv CK DK -> decoded E conv CV DV -> equivalence (wf CK) eqb ->
    decoded E conv (hash_map_codec CK CV eqb) (de_hash_map E eqb DK DV)
| dc_struct is_path attrs a ID Ts decls fs cs ps D :
    Attribute_try_from is_path attrs = Some a -> plain a -> identifier (class_of a) (pc_of a) (number_of a) ID ->
    try_fields is_path Ts decls = Some fs -> decoded_fields E conv Ts fs cs ->
    do_deserialize is_path E attrs (DStruct Ts decls) ps = Some D ->
    decoded E conv (struct_codec ID Ts cs) D
| dc_transparent is_path attrs a Ts decls fs cs ps D :
    Attribute_try_from is_path attrs = Some a -> has a ATransparent ->
    try_fields is_path Ts decls = Some fs -> decoded_fields E conv Ts fs cs ->
    do_deserialize is_path E attrs (DStruct Ts decls) ps = Some D ->
    decoded E conv (transparent_codec Ts cs) D
| dc_enum is_path attrs a Tss decls vs ws ps D :
    Attribute_try_from is_path attrs = Some a -> plain a ->
    try_variants is_path Tss decls = Some vs -> decoded_variants E conv Tss vs ws ->
    do_deserialize is_path E attrs (DEnum Tss decls) ps = Some D ->
    decoded E conv (enum_codec Tss ws) D
| dc_via C D0 T (f : T -> car C) g P eqv D : conv = true -> decoded E conv C D0 -> makes C f g P ->
    de_via D0 g D -> decoded E conv (to_codec (via C f P eqv)) D
with decoded_fields (E : env) (conv : bool) : forall Ts : list Type, hlist field Ts -> hlist field_spec Ts -> Prop :=
| dcf_nil : decoded_fields E conv [] tt tt
| dcf_skipped T Ts (f : field T) fs cs : skips_de (f_attr f) -> decoded_fields E conv Ts fs cs ->
    decoded_fields E conv (T :: Ts) (f, fs) (Skipped (default_of f), cs)
| dcf_coded T Ts (f : field T) c fs cs : ~ skips_de (f_attr f) ->
    decoded E conv (to_codec c) (field_de f) -> decoded_fields E conv Ts fs cs ->
    decoded_fields E conv (T :: Ts) (f, fs) (Coded c, cs)
with decoded_variants (E : env) (conv : bool) : forall Tss : list (list Type), vlist data_container Tss -> vlist variant_spec Tss -> Prop :=
| dcv_nil : decoded_variants E conv [] tt tt
| dcv_cons Ts Tss (dc : data_container Ts) ID cs vs ws :
    identifier (class_of (dc_attr dc)) (pc_of (dc_attr dc)) (number_of (dc_attr dc)) ID ->
    decoded_fields E conv Ts (dc_fields dc) cs ->
    decoded_variants E conv Tss vs ws -> decoded_variants E conv (Ts :: Tss) (dc, vs) ((ID, cs), ws).
