(** Values that an implementation of Serialize refuses: what a type written by the user
    may do with such a value, and which types have parts of that kind. *)
From Coq Require Import String Ascii.
From Verif Require Import Base ModelError ModelIo ModelTag ModelContents ModelBuf ModelTlv ModelSerde ModelAttr ModelDerive.
From Verif Require Import Spec SpecSerde SpecAttr SpecDerive.
Open Scope N_scope.

(** ** What refusing is *)
(** Code that makes some [write_all] calls, no more octets than [bs] in all, and then
    gives up with an error of [P], unless one of the calls failed before. *)
Definition fails (f : forall S, writer S -> wr S unit) (bs : list N) (P : error -> Prop) : Prop :=
  exists cs e, P e /\ nlen (concat cs) <= nlen bs /\
    forall S (W : writer S) s, f S W s = wbind (write_chunks W cs) (fun _ => wlift (Err e)) s.
(** It writes [bs], or gives up. *)
Definition tries f bs P : Prop := emits f bs \/ fails f bs P.
(** A length announced beforehand is unknown or right, or the announcement is refused. *)
Definition told (r : res (option N)) (bs : list N) (P : error -> Prop) : Prop :=
  announces r bs \/ exists e, r = Err e /\ P e.
(** [D] on [v]: identifier [id] and contents [c], but any of the four methods may give
    one of the errors [P] instead; and if there are such errors, writing gives one. *)
Record attempts {T} (D : serialize T) (v : T) (id c : list N) (P : error -> Prop) : Prop := {
  at_id : tries (fun _ W => write_id D W v) id P;
  at_contents : tries (fun _ W => write_der_contents D W v) c P;
  at_id_len : told (id_len D v) id P;
  at_contents_len : told (der_contents_len D v) c P;
  at_strict : (exists e, P e) -> fails (fun _ W => write_id D W v) id P \/ fails (fun _ W => write_der_contents D W v) c P }.
(** The values of a type, each with the errors it may be refused with.  Of a value that
    is refused the octets in the codec say only how much is written at most. *)
Definition refusal (T : Type) : Type := T -> error -> Prop.
Definition ser_or_refuse (C : codec) (D : serialize (car C)) (bad : refusal (car C)) : Prop :=
  forall v, wf C v -> nlen (contents_of C v) <= isize_max -> attempts D v (id_of C v) (contents_of C v) (bad v).
(** Lengths are always announced, unless refused. *)
Definition ser_decided (C : codec) (D : serialize (car C)) : Prop :=
  forall v, wf C v -> id_len D v <> Ok None /\ der_contents_len D v <> Ok None.

(** ** Refused parts *)
Definition none_bad {T} : refusal T := fun _ _ => False.
Definition items_bad {T} (bad : refusal T) : refusal (list T) := fun vs e => Exists (fun v => bad v e) vs.
Definition entries_bad {K V} (bk : refusal K) (bv : refusal V) : refusal (list (K * V)) :=
  items_bad (fun kv e => bk (fst kv) e \/ bv (snd kv) e).
(** Of the encoded fields. *)
Fixpoint fields_bad (Ts : list Type) : hlist field_spec Ts -> hlist refusal Ts -> refusal (tuple Ts) :=
  match Ts with
  | [] => fun _ _ _ _ => False
  | T :: Ts' => fun cs bs v e =>
      match fst cs with
      | Skipped _ => fields_bad Ts' (snd cs) (snd bs) (snd v) e
      | Coded _ => fst bs (fst v) e \/ fields_bad Ts' (snd cs) (snd bs) (snd v) e
      end
  end.
Fixpoint variants_bad (Tss : list (list Type)) : vlist variant_spec Tss -> vlist (hlist refusal) Tss -> refusal (choice Tss) :=
  match Tss with
  | [] => fun _ _ _ _ => False
  | Ts :: Tss' => fun ws bs v e =>
      match v with
      | inl t => fields_bad Ts (snd (fst ws)) (fst bs) t e
      | inr v' => variants_bad Tss' (snd ws) (snd bs) v' e
      end
  end.

(** ** Types with such parts *)
(** The type with codec [C] is serialised by [S]; [bad v]: errors of parts of [v]. *)
Inductive partly (E : env) : forall C : codec, serialize (car C) -> refusal (car C) -> Prop :=
| py_lawful C S : ser_law C S -> partly E C S none_bad
| py_custom C S bad : ser_or_refuse C S bad -> partly E C S bad
| py_vec C S bad : partly E C S bad -> partly E (seq_codec C) (ser_vec E S) (items_bad bad)
| py_linked_list C S bad : partly E C S bad -> partly E (seq_codec C) (ser_linked_list E S) (items_bad bad)
| py_vec_deque C S bad : partly E C S bad -> partly E (seq_codec C) (ser_vec_deque E S) (items_bad bad)
| py_btree_set C S bad cmp : partly E C S bad -> partly E (btree_set_codec C cmp) (ser_btree_set E S) (items_bad bad)
| py_hash_set C S bad eqb : partly E C S bad -> partly E (hash_set_codec C eqb) (ser_hash_set E S) (items_bad bad)
| py_btree_map CK SK bk CV SV bv cmp : partly E CK SK bk -> partly E CV SV bv ->
    partly E (btree_map_codec CK CV cmp) (ser_btree_map E SK SV) (entries_bad bk bv)
(** see C24_hash_map_refuted for keys of unknown length *)
| py_hash_map CK SK bk CV SV bv eqb : partly E CK SK bk -> ser_decided CK SK -> partly E CV SV bv ->
    partly E (hash_map_codec CK CV eqb) (ser_hash_map E SK SV) (entries_bad bk bv)
| py_struct is_path attrs a ID Ts decls fs cs bs ps S :
    Attribute_try_from is_path attrs = Some a -> plain a -> identifier (class_of a) (pc_of a) (number_of a) ID ->
    try_fields is_path Ts decls = Some fs -> partly_fields E Ts fs cs bs ->
    do_serialize is_path E attrs (DStruct Ts decls) ps = Some S ->
    partly E (struct_codec ID Ts cs) S (fields_bad Ts cs bs)
| py_transparent is_path attrs a Ts decls fs cs bs ps S :
    Attribute_try_from is_path attrs = Some a -> has a ATransparent ->
    try_fields is_path Ts decls = Some fs -> partly_fields E Ts fs cs bs ->
    do_serialize is_path E attrs (DStruct Ts decls) ps = Some S ->
    partly E (transparent_codec Ts cs) S (fields_bad Ts cs bs)
| py_enum is_path attrs a Tss decls vs ws bs ps S :
    Attribute_try_from is_path attrs = Some a -> plain a ->
    try_variants is_path Tss decls = Some vs -> partly_variants E Tss vs ws bs ->
    do_serialize is_path E attrs (DEnum Tss decls) ps = Some S ->
    partly E (enum_codec Tss ws) S (variants_bad Tss ws bs)
| py_via C S0 bad T (f : T -> car C) P eqv S : partly E C S0 bad -> ser_via f S0 S ->
    partly E (to_codec (via C f P eqv)) S (fun v => bad (f v))
with partly_fields (E : env) : forall Ts : list Type, hlist field Ts -> hlist field_spec Ts -> hlist refusal Ts -> Prop :=
| pf_nil : partly_fields E [] tt tt tt
| pf_skipped T Ts (f : field T) d bad fs cs bs : skips_ser (f_attr f) -> partly_fields E Ts fs cs bs ->
    partly_fields E (T :: Ts) (f, fs) (Skipped d, cs) (bad, bs)
| pf_coded T Ts (f : field T) c bad fs cs bs : ~ skips_ser (f_attr f) ->
    partly E (to_codec c) (field_ser f) bad -> partly_fields E Ts fs cs bs ->
    partly_fields E (T :: Ts) (f, fs) (Coded c, cs) (bad, bs)
with partly_variants (E : env) : forall Tss : list (list Type), vlist data_container Tss -> vlist variant_spec Tss ->
    vlist (hlist refusal) Tss -> Prop :=
| pv_nil : partly_variants E [] tt tt tt
| pv_cons Ts Tss (dc : data_container Ts) ID cs bad vs ws bs : identifier (class_of (dc_attr dc)) (pc_of (dc_attr dc)) (number_of (dc_attr dc)) ID ->
    partly_fields E Ts (dc_fields dc) cs bad -> partly_variants E Tss vs ws bs ->
    partly_variants E (Ts :: Tss) (dc, vs) ((ID, cs), ws) (bad, bs).
