(** Serialisation on a machine whose usize has [w] octets: what is asked of an implementation, and the types. *)
From Coq Require Import String Ascii.
From Verif Require Import Base ModelIo ModelTag ModelContents ModelBuf ModelTlv ModelSerde ModelAttr ModelDerive ModelWord ModelSerWord.
From Verif Require Import Spec SpecSerde SpecAttr SpecDerive.

(** Code that writes the octets [bs] as [emits] says or, if [too_big], may panic on the way. *)
Definition emits_or (too_big : Prop) (f : forall S, writer S -> wr S unit) (bs : list N) : Prop :=
  exists cs, concat cs = bs /\
    forall S (W : writer S) s, f S W s = write_chunks W cs s \/ too_big /\ fst (f S W s) = Panic.
(** A length that is unknown, or that of [bs], which is a usize; or, if [too_big], a panic. *)
Definition announces_or (w : N) (too_big : Prop) (r : res (option N)) (bs : list N) : Prop :=
  r = Ok None \/ (r = Ok (Some (nlen bs)) /\ nlen bs < word_limit w) \/ (too_big /\ r = Panic).
(** [D] serialises [v] as identifier [id] and contents [c]; contents beyond isize::MAX may make it panic. *)
Record w_serialises (w : N) {T} (D : serialize T) (v : T) (id c : list N) : Prop := {
  ws_id : emits (fun _ W => write_id D W v) id;
  ws_contents : emits_or (word_max w < nlen c) (fun _ W => write_der_contents D W v) c;
  ws_id_len : announces (id_len D v) id;
  ws_contents_len : announces_or w (word_max w < nlen c) (der_contents_len D v) c }.
(** In the release profile nothing is asked beyond isize::MAX. *)
Definition asked (w : N) (rel : bool) (bs : list N) : Prop := rel = true -> nlen bs <= word_max w.
Definition w_law (w : N) (rel : bool) (C : codec) (D : serialize (car C)) : Prop :=
  forall v, wf C v -> asked w rel (contents_of C v) -> w_serialises w D v (id_of C v) (contents_of C v).
(** Lengths are always known. *)
Definition w_known (w : N) (rel : bool) (C : codec) (D : serialize (car C)) : Prop :=
  forall v, wf C v -> asked w rel (contents_of C v) -> id_len D v <> Ok None /\ der_contents_len D v <> Ok None.

(** What is written into a Buffer, which has at most isize::MAX octets: if the contents have more, the code panics;
    until then it writes the identifier, and the length it announces is some usize. *)
Record w_overflows (w : N) (E : env) {T} (D : serialize T) (v : T) (id : list N) : Prop := {
  wo_id : emits (fun _ W => write_id D W v) id;
  wo_id_len : announces (id_len D v) id;
  wo_contents : forall b, b_len b <= bf_cap b <= word_max w -> bytes_ok (drop (b_len b) (b_mem b)) ->
    fst (write_der_contents D (x_buf_writer w (e_cfg E)) v b) = Panic;
  wo_contents_len : der_contents_len D v = Panic \/ der_contents_len D v = Ok None \/
    exists n, der_contents_len D v = Ok (Some n) /\ n < word_limit w }.
Definition w_bounded (w : N) (E : env) (C : codec) (D : serialize (car C)) : Prop :=
  forall v, wf C v -> word_max w < nlen (contents_of C v) -> w_overflows w E D v (id_of C v).

(** Strings and slices of at most isize::MAX octets: there are no others. *)
Definition short (w : N) (C : codec) (size : car C -> N) : codec := with_values C (fun v => size v <= word_max w) (same C).
(** The type with codec [C] is serialised by [S] on that machine: provided, derived, or written by the user and
    lawful.  As [supported] (SpecDerive.v). *)
Inductive on_word (E : env) (w : N) (rel : bool) : forall C : codec, serialize (car C) -> Prop :=
| ow_bool : on_word E w rel bool_codec ser_bool
| ow_int t : t <> ISize -> t <> USize -> on_word E w rel (int_codec t) (ser_int t)
| ow_word signed : In w [1; 2; 4; 8] -> on_word E w rel (int_codec (word_ty w signed)) (x_ser_word w signed)
| ow_string : on_word E w rel (short w string_codec (@nlen N)) ser_string
| ow_octets : on_word E w rel (short w octets_codec (@nlen N)) ser_octets
| ow_custom C S : w_law w rel C S -> w_bounded w E C S -> on_word E w rel C S
| ow_seq C S : on_word E w rel C S -> on_word E w rel (seq_codec C) (x_ser_items w rel E ID_SEQUENCE S)
| ow_btree_set C S cmp : on_word E w rel C S -> on_word E w rel (btree_set_codec C cmp) (x_ser_items w rel E ID_SEQUENCE S)
| ow_hash_set C S eqb : on_word E w rel C S -> on_word E w rel (hash_set_codec C eqb) (x_ser_items w rel E ID_SET S)
| ow_btree_map CK SK CV SV cmp : on_word E w rel CK SK -> on_word E w rel CV SV ->
    on_word E w rel (btree_map_codec CK CV cmp) (x_ser_btree_map w rel E SK SV)
| ow_hash_map CK SK CV SV eqb : on_word E w rel CK SK -> w_known w rel CK SK -> on_word E w rel CV SV ->
    on_word E w rel (hash_map_codec CK CV eqb) (x_ser_hash_map w rel E SK SV)
| ow_struct is_path attrs a ID Ts decls fs cs ps S :
    Attribute_try_from is_path attrs = Some a -> plain a -> identified a ID ->
    try_fields is_path Ts decls = Some fs -> fields_on_word E w rel Ts fs cs ->
    x_do_serialize w rel is_path E attrs (DStruct Ts decls) ps = Some S -> on_word E w rel (struct_codec ID Ts cs) S
| ow_transparent is_path attrs a Ts decls fs cs ps S :
    Attribute_try_from is_path attrs = Some a -> has a ATransparent ->
    try_fields is_path Ts decls = Some fs -> fields_on_word E w rel Ts fs cs ->
    x_do_serialize w rel is_path E attrs (DStruct Ts decls) ps = Some S -> on_word E w rel (transparent_codec Ts cs) S
| ow_enum is_path attrs a Tss decls vs ws ps S :
    Attribute_try_from is_path attrs = Some a -> plain a ->
    try_variants is_path Tss decls = Some vs -> variants_on_word E w rel Tss vs ws ->
    x_do_serialize w rel is_path E attrs (DEnum Tss decls) ps = Some S -> on_word E w rel (enum_codec Tss ws) S
| ow_via C S0 T (f : T -> car C) P eqv S : on_word E w rel C S0 -> ser_via f S0 S ->
    on_word E w rel (to_codec (via C f P eqv)) S
with fields_on_word (E : env) (w : N) (rel : bool) : forall Ts : list Type, hlist field Ts -> hlist field_spec Ts -> Prop :=
| fw_nil : fields_on_word E w rel [] tt tt
| fw_skipped T Ts (f : field T) d fs cs : skips_ser (f_attr f) -> fields_on_word E w rel Ts fs cs ->
    fields_on_word E w rel (T :: Ts) (f, fs) (Skipped d, cs)
| fw_coded T Ts (f : field T) c fs cs : ~ skips_ser (f_attr f) ->
    on_word E w rel (to_codec c) (field_ser f) -> fields_on_word E w rel Ts fs cs ->
    fields_on_word E w rel (T :: Ts) (f, fs) (Coded c, cs)
with variants_on_word (E : env) (w : N) (rel : bool) : forall Tss : list (list Type), vlist data_container Tss -> vlist variant_spec Tss -> Prop :=
| vw_nil : variants_on_word E w rel [] tt tt
| vw_cons Ts Tss (dc : data_container Ts) ID cs vs ws : identified (dc_attr dc) ID -> fields_on_word E w rel Ts (dc_fields dc) cs ->
    variants_on_word E w rel Tss vs ws -> variants_on_word E w rel (Ts :: Tss) (dc, vs) ((ID, cs), ws).
